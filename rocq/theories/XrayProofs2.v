(** * XrayProofs2: proofs about gcore and the help. *)
From Coq Require Import ZArith List Ascii String Bool Lia.
From Verif Require Import PyBase PyFacts Platform IntModel IntProofs RegexModel RegexFacts MapModel MapSpec MapProofs MapProofs2 ArgModel GdbModel GdbSpec XrayModel XraySpec XrayProofs.
Import ListNotations.
Open Scope Z_scope.

(** ** Names *)
Lemma contains_parts t s : contains t s = true <-> exists a b, s = a ++ t ++ b.
Proof.
  unfold contains. split.
  - destruct (find_sub t s) eqn:E; [|discriminate]. intros _. apply find_sub_some in E as (a & b & E & _). eauto.
  - intros (a & b & E). destruct (find_sub_before t s a b E) as (n & -> & _). reflexivity.
Qed.
(** A text without the character comes before every part that starts with it. *)
Lemma after_head (c : ascii) (h : text) : ~ In c h -> forall a s b, h ++ s = a ++ c :: b -> exists a', a = h ++ a'.
Proof.
  induction h as [|x h IH]; intros Hn a s b E; [now exists a|]. destruct a as [|y a]; cbn in E; injection E as -> E.
  - exfalso. apply Hn. now left.
  - destruct (IH (fun H => Hn (or_intror H)) a s b E) as (a' & ->). now exists a'.
Qed.
Lemma head_chars m : plain_mapping m -> ~ In "/"%char (line_head m ++ [" "%char]).
Proof.
  intros (H1 & H2 & H3 & H4 & H5 & H6 & H7 & H8 & _).
  assert (forall w n, 0 <= n -> Forall (fun c => c <> "/"%char) (hexpad w n)) as Hh.
  { intros w n Hn. eapply Forall_impl; [|exact (hexpad_hex w n Hn)]. intros c Hc ->. discriminate Hc. }
  assert (Forall (fun c => c <> "/"%char) (str_int (mp_inode m))) as Hs.
  { eapply Forall_impl; [|exact (str_int_digit _ H4)]. intros c Hc ->. discriminate Hc. }
  assert (Forall (fun c => c <> "/"%char) (mp_permissions m)) as Hp.
  { eapply Forall_impl; [|exact H8]. intros c Hc ->. repeat (destruct Hc as [Hc|Hc]; [discriminate Hc|]). destruct Hc. }
  assert (Forall (fun c => c <> "/"%char) (line_head m ++ [" "%char])) as Hf.
  { unfold line_head. repeat first [exact Hs|exact Hp|apply Hh; lia|apply Forall_app; split|apply Forall_cons; [discriminate|]|apply Forall_nil]. }
  intros Hi. rewrite Forall_forall in Hf. now apply Hf in Hi.
Qed.
Lemma line_contains m pad r : plain_mapping m -> ~ In newline r ->
  (contains ("/"%char :: r) (maps_line m pad) = true <-> in_name ("/"%char :: r) m).
Proof.
  intros Hm Hr. rewrite contains_parts. rewrite maps_line_head. unfold in_name.
  assert (~ In "/"%char (match mp_pathname m with Some _ => (line_head m ++ [" "%char]) ++ repeat " "%char pad | None => (line_head m ++ [" "%char]) ++ [newline] end)) as Hh.
  { pose proof (head_chars m Hm). destruct (mp_pathname m); intros Hi; apply in_app_or in Hi as [Hi|Hi]; try contradiction.
    - apply repeat_spec in Hi. discriminate.
    - destruct Hi as [Hi|[]]. discriminate. }
  destruct (mp_pathname m) as [name|].
  - split.
    + intros (a & b & E). replace (line_head m ++ " "%char :: (repeat " "%char pad ++ name) ++ [newline]) with (((line_head m ++ [" "%char]) ++ repeat " "%char pad) ++ name ++ [newline]) in E by (rewrite <- !app_assoc; reflexivity).
      cbn [app] in E. destruct (after_head _ _ Hh _ _ _ E) as (a' & ->). rewrite <- (app_assoc _ a') in E. apply app_inv_head in E.
      destruct (@exists_last _ ("/"%char :: r ++ b) ltac:(discriminate)) as (u & z & Eu). rewrite Eu, app_assoc in E. apply app_inj_tail in E as [E <-].
      destruct b as [|x b] using rev_ind.
      * rewrite app_nil_r in Eu. exfalso. destruct r as [|y r] using rev_ind; [destruct u as [|? [|? ?]]; discriminate Eu|].
        rewrite app_comm_cons in Eu. apply app_inj_tail in Eu as [_ ->]. apply Hr. apply in_or_app. right. now left.
      * rewrite app_assoc, app_comm_cons in Eu. apply app_inj_tail in Eu as [Eu _]. exists name, a', b. split; [reflexivity|]. rewrite E, <- Eu. reflexivity.
    + intros (n & a & b & [= <-] & ->). exists ((line_head m ++ [" "%char]) ++ repeat " "%char pad ++ a), (b ++ [newline]).
      do 4 (rewrite <- ?app_assoc; cbn [app]). reflexivity.
  - split; [|intros (? & ? & ? & ? & _); discriminate]. intros (a & b & E). exfalso.
    apply Hh. replace ((line_head m ++ [" "%char]) ++ [newline]) with (line_head m ++ " "%char :: [] ++ [newline]) by (rewrite <- app_assoc; reflexivity).
    rewrite E. apply in_or_app. right. now left.
Qed.

(** ** A line *)
Lemma is_hex_lower_hex c : is_hex_lower c = true -> is_hex c = true.
Proof. unfold is_hex_lower, is_hex. rewrite !orb_true_iff. tauto. Qed.
Lemma gcore_match m pad : plain_mapping m -> read_permission m ->
  exists c r, mp_permissions m = c :: r /\
    (exists e, re_match GCORE_REGEX (maps_line m pad) = Some e /\ m_groups e = [(1%nat, hexpad 8 (mp_start m)); (2%nat, hexpad 8 (mp_end m)); (3%nat, [c])]).
Proof.
  intros Hm (r & Hr). assert (exists c, mp_permissions m = c :: r /\ char_in (T "-r") c = true) as (c & Hc & Hin) by (destruct Hr as [Hr|Hr]; eexists; split; [exact Hr|reflexivity|exact Hr|reflexivity]).
  exists c, r. split; [exact Hc|]. destruct Hm as (H1 & H2 & _).
  assert (forall w n, 0 <= n -> Forall (fun x => is_hex x = true) (hexpad w n)) as Hh.
  { intros w n Hn. eapply Forall_impl; [|exact (hexpad_hex w n Hn)]. apply is_hex_lower_hex. }
  assert (exists q, mat GCORE_REGEX ([], maps_line m pad) [] (fun p c => Some (p, c)) = Some (q, [(1%nat, hexpad 8 (mp_start m)); (2%nat, hexpad 8 (mp_end m)); (3%nat, [c])])) as [q E].
  { eexists. rewrite maps_line_head. unfold line_head, GCORE_REGEX, rcat. rewrite Hc. do 8 (rewrite <- ?app_assoc; cbn [app]).
    apply mat_cat, mat_group_plus; [apply hexpad_nonempty|now apply Hh|reflexivity|].
    apply mat_cat, mat_char; apply mat_cat, mat_group_plus; [apply hexpad_nonempty|now apply Hh|reflexivity|].
    apply mat_cat, mat_char. match goal with |- mat _ (?b, c :: ?x) _ _ = _ => change (c :: x) with ([c] ++ x) end.
    apply mat_group; [|reflexivity]. intros k' Hk'. cbn [mat fst snd app]. rewrite Hin. exact Hk'. }
  unfold re_match, match_at. rewrite E. eexists. split; reflexivity.
Qed.
Lemma gcore_line_spec mem m pad : plain_mapping m -> read_permission m ->
  (dumped m /\ gcore_line mem (maps_line m pad) = mem (mp_start m) (mp_end m - mp_start m)) \/ (~ dumped m /\ gcore_line mem (maps_line m pad) = Ok []).
Proof.
  intros Hm Hr. destruct (gcore_match m pad Hm Hr) as (c & r & Hc & e & He & Hg). unfold gcore_line. rewrite He. unfold int_group, text_group. rewrite Hg. unfold group. cbn [dget Nat.eqb].
  rewrite !hexpad_read by apply Hm. cbn [bind].
  pose proof (line_contains m pad (T "lib") Hm ltac:(intros Hi; repeat (destruct Hi as [Hi|Hi]; [discriminate Hi|]); destruct Hi)) as Hl.
  pose proof (line_contains m pad (T "usr") Hm ltac:(intros Hi; repeat (destruct Hi as [Hi|Hi]; [discriminate Hi|]); destruct Hi)) as Hu.
  change ("/"%char :: T "lib") with (T "/lib") in Hl. change ("/"%char :: T "usr") with (T "/usr") in Hu.
  destruct (text_eqb [c] (T "r")) eqn:Er.
  - apply text_eqb_eq in Er. injection Er as ->. destruct (contains (T "/lib") (maps_line m pad)).
    + right. split; [|reflexivity]. intros (_ & Hn & _). apply Hn, Hl. reflexivity.
    + destruct (contains (T "/usr") (maps_line m pad)).
      * right. split; [|reflexivity]. intros (_ & _ & Hn). apply Hn, Hu. reflexivity.
      * left. split; [|reflexivity]. split; [eauto|]. split; intros Hi; [apply Hl in Hi|apply Hu in Hi]; discriminate.
  - right. split; [|reflexivity]. intros ((r' & Hr') & _). rewrite Hc in Hr'. injection Hr' as -> _. discriminate Er.
Qed.
(** ** The file *)
Lemma gcore_lines_spec mem content ms : Forall plain_mapping ms -> Forall read_permission ms ->
  (forall m, In m ms -> dumped m -> mem (mp_start m) (mp_end m - mp_start m) = Ok (content m)) ->
  forall pads, List.length pads = List.length ms ->
  exists d, dump_of content ms d /\ gcore_lines mem (file_lines (maps_text ms pads)) = (d, Ok tt).
Proof.
  intros Hf. induction Hf as [|m ms Hm Hf IH]; intros Hp Hc [|pad pads] Hl; try discriminate.
  - exists []. split; [constructor|reflexivity].
  - inversion Hp as [|? ? Hp1 Hp2]; subst. destruct (IH Hp2 (fun m' H => Hc m' (or_intror H)) pads (eq_add_S _ _ Hl)) as (d & Hd & E).
    unfold maps_text in *. cbn [combine map List.concat fst snd]. destruct (line_chars m pad Hm) as (l & El & Hnl & _). rewrite El, <- app_assoc. cbn [app]. rewrite file_lines_cons by exact Hnl. rewrite <- El. cbn [gcore_lines].
    destruct (gcore_line_spec mem m pad Hm Hp1) as [[H1 H2]|[H1 H2]]; rewrite H2.
    + rewrite (Hc m (or_introl eq_refl) H1), E. exists (content m ++ d). split; [now apply dump_keep|reflexivity].
    + rewrite E. exists d. split; [now apply dump_skip|reflexivity].
Qed.
Lemma child_pid_str n : 0 <= n -> child_pid (process_str n) = str_int n.
Proof.
  intros H. unfold child_pid, process_str. assert (~ In "#"%char (str_int n ++ T ">")) as Hn.
  { intros Hi. apply in_app_or in Hi as [Hi|[Hi|[]]]; [|discriminate]. pose proof (str_int_digit n H) as Hf. rewrite Forall_forall in Hf. apply Hf in Hi. discriminate Hi. }
  change (T "<PtraceProcess #" ++ str_int n ++ T ">") with (join ["#"%char] [T "<PtraceProcess "; str_int n ++ T ">"]).
  rewrite split_join; [cbn [last]; apply removelast_last|discriminate|].
  intros x [<-|[<-|[]]]; [|exact Hn]. intros Hi. repeat (destruct Hi as [Hi|Hi]; [discriminate Hi|]). destruct Hi.
Qed.
Lemma gcore_spec argv1 open_maps open_mem open_dump mem content n ms pads : 0 <= n ->
  Forall plain_mapping ms -> Forall read_permission ms -> List.length pads = List.length ms ->
  (forall m, In m ms -> dumped m -> mem (mp_start m) (mp_end m - mp_start m) = Ok (content m)) ->
  open_maps (T "/proc/" ++ str_int n ++ T "/maps") = Ok (maps_text ms pads) -> open_mem (T "/proc/" ++ str_int n ++ T "/mem") = Ok tt ->
  open_dump (T "/vmdump/" ++ argv1 ++ T ".dump") = Ok tt ->
  exists d, dump_of content ms d /\ gcore false (Some argv1) open_maps open_mem open_dump mem (process_str n) = (Some (T "/vmdump/" ++ argv1 ++ T ".dump", d), Ok tt).
Proof.
  intros Hn Hf Hp Hl Hc H1 H2 H3. destruct (gcore_lines_spec mem content ms Hf Hp Hc pads Hl) as (d & Hd & E). exists d. split; [exact Hd|].
  unfold gcore. rewrite child_pid_str, H1, H2, H3, E by exact Hn. reflexivity.
Qed.
Lemma gcore_python3 argv1 open_maps open_mem open_dump mem process : exists e, gcore true argv1 open_maps open_mem open_dump mem process = (None, Err e).
Proof. unfold gcore. destruct (open_maps _); eauto. Qed.
Lemma gcore_skipped : exists m, mp_permissions m = T "rw-p" /\ mp_pathname m = Some (T "/home/u/library/data") /\ plain_mapping m /\
  gcore_line (fun _ _ => Ok (T "secret")) (maps_line m 3) = Ok [].
Proof.
  exists (Mapping 4096 4102 (T "rw-p") 0 8 1 77 (Some (T "/home/u/library/data"))). split; [reflexivity|]. split; [reflexivity|]. split; [|vm_compute; reflexivity].
  unfold plain_mapping. cbn [mp_start mp_end mp_offset mp_inode mp_major mp_minor mp_permissions mp_pathname]. repeat (split; [lia || reflexivity|]). split.
  - repeat constructor; unfold permission_char; vm_compute; tauto.
  - unfold plain_name. split; [intros Hi; repeat (destruct Hi as [Hi|Hi]; [discriminate Hi|]); destruct Hi|]. split; [intros Hi; repeat (destruct Hi as [Hi|Hi]; [discriminate Hi|]); destruct Hi|].
    split; [now exists "/"%char, (T "home/u/library/data")|now exists (T "/home/u/library/dat"), "a"%char].
Qed.
(** ** Help *)
Lemma listed_words : forall c, In c words \/ In c (map strip prefixes) -> In c (map fst COMMANDS).
Proof.
  assert (forallb (fun c => existsb (text_eqb c) (map fst COMMANDS)) (words ++ map strip prefixes) = true) as E by (vm_compute; reflexivity).
  intros c H. rewrite forallb_forall in E. assert (In c (words ++ map strip prefixes)) as Hi by (apply in_or_app; exact H).
  specialize (E c Hi). apply existsb_exists in E as (x & Hx & Ex). apply text_eqb_eq in Ex. now subst.
Qed.
Lemma words_listed : forall c, In c (map fst COMMANDS) -> In c words \/ In c (map strip prefixes) \/ c = T "quit".
Proof.
  assert (forallb (fun c => existsb (text_eqb c) (words ++ map strip prefixes ++ [T "quit"])) (map fst COMMANDS) = true) as E by (vm_compute; reflexivity).
  intros c H. rewrite forallb_forall in E. specialize (E c H). apply existsb_exists in E as (x & Hx & Ex). apply text_eqb_eq in Ex. subst. apply in_app_or in Hx as [Hx|Hx]; [now left|].
  apply in_app_or in Hx as [Hx|[<-|[]]]; auto.
Qed.
Lemma help_known c : In c (map fst COMMANDS) -> c <> T "quit" -> forall t, dispatch c <> KUnknown t \/ dispatch (c ++ " "%char :: t) <> KUnknown (c ++ " "%char :: t).
Proof.
  intros H Hq t. assert (forallb (fun c => existsb (text_eqb c) (words ++ map strip prefixes)) (filter (fun c => negb (text_eqb c (T "quit"))) (map fst COMMANDS)) = true) as E by (vm_compute; reflexivity).
  cbn [map fst COMMANDS] in H. unfold COMMANDS in H. cbn [map fst] in H.
  repeat (destruct H as [<-|H]; [first [left; discriminate|right; discriminate|exfalso; now apply Hq]|]). destruct H.
Qed.
Lemma help_lines : forall c d, In (c, d) COMMANDS -> In (c ++ T ": " ++ d) help.
Proof. intros c d H. unfold help. apply in_or_app. left. apply in_map_iff. now exists (c, d). Qed.
Lemma help_once : NoDup (map fst COMMANDS).
Proof.
  assert (forall l : list text, (fix nd l := match l with [] => true | x :: l => negb (existsb (text_eqb x) l) && nd l end) l = true -> NoDup l) as H.
  { induction l as [|x l IH]; intros E; constructor; apply andb_true_iff in E as [E1 E2]; [|auto]. intros Hi. apply negb_true_iff in E1. apply not_true_iff_false in E1. apply E1. apply existsb_exists. exists x. split; [exact Hi|apply text_eqb_refl]. }
  apply H. vm_compute. reflexivity.
Qed.
(** ** A term with a semicolon *)
Lemma semicolon : exists line, line = T "follow " ++ T "'a;b'" /\ (forall eval, parseBytes eval (T "'a;b'") = Ok (T "a;b")) /\
  exists t rest, split_char ";"%char line = t :: rest /\ dispatch (strip t) = KFollow (T "'a") /\ forall eval, parseBytes eval (T "'a") = Err ESyntaxError.
Proof. exists (T "follow 'a;b'"). split; [reflexivity|]. split; [reflexivity|]. exists (T "follow 'a"), [T "b'"]. repeat split. Qed.
Lemma info_lines n : debuggerInfo n = [T "Debugger process ID: " ++ str_int n; T "python-ptrace version 0.9.10"; T "Website: http://python-ptrace.readthedocs.io/"].
Proof. reflexivity. Qed.
Lemma help_texts : help = map (fun c => fst c ++ T ": " ++ snd c) COMMANDS ++ skipn (List.length COMMANDS) help /\ List.length help = (List.length COMMANDS + 4)%nat.
Proof. split; reflexivity. Qed.
Lemma gcore_python3_ex : exists argv1 open_maps open_mem open_dump mem process,
  gcore false argv1 open_maps open_mem open_dump mem process = (Some (T "/vmdump/prog.dump", T "data"), Ok tt) /\
  gcore true argv1 open_maps open_mem open_dump mem process = (None, Err EValueError).
Proof.
  exists (Some (T "prog")), (fun _ => Ok (maps_line (Mapping 4096 4100 (T "rw-p") 0 0 0 0 None) 0)), (fun _ => Ok tt), (fun _ => Ok tt), (fun _ _ => Ok (T "data")), (process_str 5).
  split; vm_compute; reflexivity.
Qed.
Lemma help_text : help = map T help_page.
Proof. vm_compute. reflexivity. Qed.

(** ** Hexadecimal numbers in either case *)
Lemma hex_digit_spec c d : hex_digit c d -> is_hex c = true /\ digit_val c = Some (Z.of_nat d) /\ (d < 16)%nat.
Proof.
  intros H. assert (d < 16)%nat as Hd by (destruct H as [H|H]; match type of H with nth_error ?l _ = _ => apply (proj1 (nth_error_Some l d)) end; congruence).
  do 16 (destruct d as [|d]; [destruct H as [H|H]; injection H as <-; repeat split; lia|]). lia.
Qed.
Lemma is_hex_digit c : is_hex c = true -> exists d, hex_digit c d.
Proof.
  pose proof (forall_ascii (fun c => negb (is_hex c) || existsb (fun d => match nth_error (T "0123456789abcdef") d, nth_error (T "0123456789ABCDEF") d with Some a, Some b => Ascii.eqb a c || Ascii.eqb b c | _, _ => false end) (seq 0 16)) ltac:(vm_compute; reflexivity) c) as F.
  cbv beta in F. intros H. rewrite H in F. cbn [negb orb] in F. apply existsb_exists in F as (d & _ & F). exists d. unfold hex_digit.
  destruct (nth_error _ d) as [a|]; [|discriminate]. destruct (nth_error _ d) as [b|]; [|discriminate].
  apply orb_prop in F as [F|F]; apply Ascii.eqb_eq in F; subst; auto.
Qed.
Lemma hex_word_spec w n : hex_word w n -> w <> [] /\ Forall (fun c => is_hex c = true) w /\ read_uint 16 w = Some n.
Proof.
  intros H. assert (w <> [] /\ Forall (fun c => is_hex c = true) w /\ forall acc, read_digits 16 w acc = Some (acc * 16 ^ Z.of_nat (List.length w) + n)) as (H1 & H2 & H3).
  { induction H as [c d Hd|w n c d Hw (IH1 & IH2 & IH3) Hd]; apply hex_digit_spec in Hd as (X & V & L).
    - split; [discriminate|]. split; [now constructor|]. intros acc. cbn [read_digits]. rewrite V. assert (Z.of_nat d <? 16 = true) as -> by lia. f_equal; cbn [List.length]; lia.
    - split; [destruct w; discriminate|]. split; [apply Forall_app; split; [exact IH2|now constructor]|]. intros acc.
      rewrite read_digits_app, IH3. cbn [read_digits]. rewrite V. assert (Z.of_nat d <? 16 = true) as -> by lia. f_equal.
      rewrite app_length, Nat2Z.inj_add, Z.pow_add_r by lia. cbn [List.length]. lia. }
  split; [exact H1|]. split; [exact H2|]. unfold read_uint. destruct w; [now elim H1|]. rewrite H3. f_equal; lia.
Qed.
Lemma gcore_hex mem w1 n1 w2 n2 rest : hex_word w1 n1 -> hex_word w2 n2 ->
  let line := w1 ++ T "-" ++ w2 ++ T " r" ++ rest in contains (T "/lib") line = false -> contains (T "/usr") line = false ->
  gcore_line mem line = mem n1 (n2 - n1).
Proof.
  cbv zeta. intros H1 H2 Hl Hu. apply hex_word_spec in H1 as (E1 & F1 & R1). apply hex_word_spec in H2 as (E2 & F2 & R2).
  assert (exists q, mat GCORE_REGEX ([], w1 ++ T "-" ++ w2 ++ T " r" ++ rest) [] (fun p c => Some (p, c)) = Some (q, [(1%nat, w1); (2%nat, w2); (3%nat, ["r"%char])])) as [q E].
  { eexists. unfold GCORE_REGEX, rcat. cbn [T list_ascii_of_string app].
    apply mat_cat, mat_group_plus; [exact E1|exact F1|reflexivity|].
    apply mat_cat, mat_char; apply mat_cat, mat_group_plus; [exact E2|exact F2|reflexivity|].
    apply mat_cat, mat_char. match goal with |- mat _ (?b, "r"%char :: ?x) _ _ = _ => change ("r"%char :: x) with (["r"%char] ++ x) end.
    apply mat_group; [|reflexivity]. intros k' Hk'. cbn [mat fst snd app]. exact Hk'. }
  unfold gcore_line, re_match, match_at. rewrite E. cbn [m_groups]. unfold int_group, text_group, group. cbn [m_groups dget Nat.eqb].
  change (text_eqb ["r"%char] (T "r")) with true. cbn iota. rewrite Hl, Hu, R1, R2. reflexivity.
Qed.
Lemma gcore_not_hex mem c rest : (forall d, ~ hex_digit c d) -> gcore_line mem (c :: rest) = Err EAttributeError.
Proof.
  intros H. assert (is_hex c = false) as Hc by (destruct (is_hex c) eqn:E; [apply is_hex_digit in E as [d E]; now elim (H d)|reflexivity]).
  unfold gcore_line, re_match, match_at. assert (mat GCORE_REGEX ([], c :: rest) [] (fun p c => Some (p, c)) = None) as ->; [|reflexivity].
  unfold GCORE_REGEX, rcat, rplus. cbn [mat fst snd]. rewrite Hc. reflexivity.
Qed.
