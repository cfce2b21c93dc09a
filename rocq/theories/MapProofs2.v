From Coq Require Import ZArith List Ascii String Bool Lia.
From Verif Require Import PyBase PyFacts Platform IntModel RegexModel RegexFacts MapModel MapSpec MemProofs IntSpec IntProofs.
Import ListNotations.
Open Scope Z_scope.

(** ** C19: numbers of the line *)
Lemma hexpad_hex w n : 0 <= n -> Forall (fun x => is_hex_lower x = true) (hexpad w n).
Proof.
  intros H. unfold hexpad, padl. apply Forall_app. split; [apply Forall_forall; intros x Hx; apply repeat_spec in Hx as ->; reflexivity|].
  apply digits_Forall; [lia| |exact H]. intros d Hd. assert (d = 0 \/ d = 1 \/ d = 2 \/ d = 3 \/ d = 4 \/ d = 5 \/ d = 6 \/ d = 7 \/ d = 8 \/ d = 9 \/ d = 10 \/ d = 11 \/ d = 12 \/ d = 13 \/ d = 14 \/ d = 15) by lia.
  intuition (subst; reflexivity).
Qed.
Lemma hexpad_nonempty w n : hexpad w n <> [].
Proof. unfold hexpad, padl. intros E. apply app_eq_nil in E as [_ E]. now apply digits_nonempty in E. Qed.
Lemma hexpad_read w n : 0 <= n -> read_uint 16 (hexpad w n) = Some n.
Proof. intros H. unfold hexpad. apply read_uint_padl; [lia|apply digits_nonempty|]. apply digits_read; lia. Qed.
Lemma str_int_digit n : 0 <= n -> Forall (fun x => is_digit x = true) (str_int n).
Proof.
  intros H. unfold str_int, fmt_int. replace (n <? 0) with false by blia. apply digits_Forall; [lia| |exact H]. intros d Hd.
  assert (d = 0 \/ d = 1 \/ d = 2 \/ d = 3 \/ d = 4 \/ d = 5 \/ d = 6 \/ d = 7 \/ d = 8 \/ d = 9) by lia. intuition (subst; reflexivity).
Qed.
Lemma str_int_digits n : 0 <= n -> str_int n = digits 10 n.
Proof. intros H. unfold str_int, fmt_int. now replace (n <? 0) with false by blia. Qed.
Lemma str_int_read n : 0 <= n -> read_uint 10 (str_int n) = Some n.
Proof. intros H. rewrite str_int_digits by exact H. apply read_uint_digits; lia. Qed.
Lemma hexpad2_length n : 0 <= n < 4096 -> (2 <= List.length (hexpad 2 n) <= 3)%nat.
Proof.
  intros H. unfold hexpad. rewrite padl_length. assert (List.length (digits 16 n) <= 3)%nat; [|lia].
  pose proof (digits_length 16 n 3 ltac:(lia) ltac:(lia) ltac:(lia) ltac:(change (16 ^ 3) with 4096; lia)). unfold zlen in *. lia.
Qed.
Definition plain_char (c : ascii) : bool := negb (is_space c) && negb (Ascii.eqb c newline) && negb (Ascii.eqb c CR).
Lemma plain_char_spec c : plain_char c = true -> is_space c = false /\ c <> newline /\ c <> CR.
Proof.
  unfold plain_char. rewrite !andb_true_iff, !negb_true_iff. intros [[H1 H2] H3]. split; [exact H1|]. split; intros ->; rewrite Ascii.eqb_refl in *; discriminate.
Qed.
Lemma hex_plain c : is_hex_lower c = true -> plain_char c = true.
Proof. intros H. assert (implb (is_hex_lower c) (plain_char c) = true) as E by (revert c H; intros c _; revert c; apply forall_ascii; vm_compute; reflexivity). now rewrite H in E. Qed.
Lemma digit_plain c : is_digit c = true -> plain_char c = true.
Proof. intros H. apply hex_plain. unfold is_hex_lower. now rewrite H. Qed.
Lemma permission_plain c : permission_char c -> plain_char c = true.
Proof. unfold permission_char. intros H. repeat (destruct H as [<-|H]; [reflexivity|]). destruct H. Qed.

Definition line_head (m : mapping) : text :=
  hexpad 8 (mp_start m) ++ "-"%char :: hexpad 8 (mp_end m) ++ " "%char :: mp_permissions m ++ " "%char ::
  hexpad 8 (mp_offset m) ++ " "%char :: hexpad 2 (mp_major m) ++ ":"%char :: hexpad 2 (mp_minor m) ++ " "%char :: str_int (mp_inode m).
Definition line_tail (m : mapping) (pad : nat) : text :=
  match mp_pathname m with Some name => " "%char :: repeat " "%char pad ++ name | None => [] end.
Lemma space_is_space : is_space " "%char = true. Proof. reflexivity. Qed.
Lemma maps_line_head m pad : maps_line m pad = line_head m ++ " "%char :: match mp_pathname m with Some name => repeat " "%char pad ++ name | None => [] end ++ [newline].
Proof. unfold maps_line, line_head. rewrite <- !app_assoc. cbn [T list_ascii_of_string app]. do 8 (rewrite <- ?app_assoc; cbn [app]). reflexivity. Qed.
Lemma line_rstrip m pad : plain_mapping m -> rstrip (maps_line m pad) = line_head m ++ line_tail m pad.
Proof.
  intros (_ & _ & _ & Hi & _ & _ & _ & _ & Hn). rewrite maps_line_head. unfold line_tail. destruct (mp_pathname m) as [name|].
  - destruct Hn as (_ & _ & _ & (r & c & -> & Hc)). replace (line_head m ++ " "%char :: (repeat " "%char pad ++ r ++ [c]) ++ [newline])
      with ((line_head m ++ " "%char :: repeat " "%char pad ++ r) ++ [c] ++ [newline]) by (repeat (rewrite <- ?app_assoc; cbn [app]); reflexivity).
    rewrite rstrip_spaces; [|exact Hc|repeat constructor]. repeat (rewrite <- ?app_assoc; cbn [app]). reflexivity.
  - assert (exists r c, line_head m = r ++ [c] /\ is_space c = false) as (r & c & -> & Hc).
    { unfold line_head. pose proof (str_int_digit _ Hi) as Hf. assert (str_int (mp_inode m) <> []) as Hne by (rewrite str_int_digits by exact Hi; apply digits_nonempty).
      destruct (exists_last Hne) as (r & c & E). rewrite E in *. apply Forall_app in Hf as [_ Hf]. inversion Hf; subst.
      eexists (hexpad 8 (mp_start m) ++ "-"%char :: hexpad 8 (mp_end m) ++ " "%char :: mp_permissions m ++ " "%char ::
        hexpad 8 (mp_offset m) ++ " "%char :: hexpad 2 (mp_major m) ++ ":"%char :: hexpad 2 (mp_minor m) ++ " "%char :: r), c. split.
      - do 8 (rewrite <- ?app_assoc; cbn [app]). reflexivity.
      - now apply plain_char_spec, digit_plain. }
    rewrite <- app_assoc. cbn [app]. rewrite app_nil_r. now apply (rstrip_spaces r c [" "%char; newline]); [|repeat constructor].
Qed.

Lemma mat_group_plus {R} n f ds rest b c (k : pos -> caps -> option R) r : ds <> [] -> Forall (fun x => f x = true) ds -> stops f rest ->
  k (rev ds ++ b, rest) (dset Nat.eqb n ds c) = Some r -> mat (RGroup n (rplus (RSet f))) (b, ds ++ rest) c k = Some r.
Proof. intros. apply mat_group; [|assumption]. intros. now apply mat_plus_set. Qed.
Lemma permissions_dot m : plain_mapping m -> Forall (fun x => negb (Ascii.eqb x newline) = true) (mp_permissions m).
Proof.
  intros (_ & _ & _ & _ & _ & _ & _ & H & _). eapply Forall_impl; [|exact H]. cbn. intros c Hc. apply permission_plain in Hc. unfold plain_char in Hc. now rewrite !andb_true_iff in Hc.
Qed.
Local Ltac walk H4 H7 Hperm :=
    unfold PROC_MAP_REGEX, rcat, line_head, hex_digits, device, space; do 8 (rewrite <- ?app_assoc; cbn [app]);
    apply mat_cat, mat_group_plus; [apply hexpad_nonempty|now apply hexpad_hex|reflexivity|];
    apply mat_cat, mat_char; apply mat_cat, mat_group_plus; [apply hexpad_nonempty|now apply hexpad_hex|reflexivity|];
    apply mat_cat, mat_char; apply mat_cat, mat_group; [intros k' Hk'; apply mat_times; [exact H7|exact Hperm|exact Hk']|];
    apply mat_cat, mat_char; apply mat_cat, mat_group_plus; [apply hexpad_nonempty|now apply hexpad_hex|reflexivity|];
    apply mat_cat, mat_char; apply mat_cat, mat_group; [intros k' Hk'; apply mat_range; [now apply hexpad2_length|now apply hexpad_hex|reflexivity|exact Hk']|];
    apply mat_cat, mat_char; apply mat_cat, mat_group; [intros k' Hk'; apply mat_range; [now apply hexpad2_length|now apply hexpad_hex|reflexivity|exact Hk']|];
    apply mat_cat, mat_char; apply mat_cat, mat_group_plus; [rewrite str_int_digits by exact H4; apply digits_nonempty|now apply str_int_digit|reflexivity|].
Lemma parse_line m pad : plain_mapping m -> parse_mapping (maps_line m pad) = Ok m.
Proof.
  intros Hm. unfold parse_mapping. rewrite line_rstrip by exact Hm. pose proof (permissions_dot m Hm) as Hperm.
  destruct Hm as (H1 & H2 & H3 & H4 & H5 & H6 & H7 & _ & Hn). set (groups := [(1%nat, hexpad 8 (mp_start m)); (2%nat, hexpad 8 (mp_end m)); (3%nat, mp_permissions m);
    (4%nat, hexpad 8 (mp_offset m)); (5%nat, hexpad 2 (mp_major m)); (6%nat, hexpad 2 (mp_minor m)); (7%nat, str_int (mp_inode m))] ++ match mp_pathname m with Some name => [(8%nat, name)] | None => [] end).
  assert (exists q, mat PROC_MAP_REGEX ([], line_head m ++ line_tail m pad) [] (fun p c => Some (p, c)) = Some (q, groups)) as [q E].
  { unfold groups, line_tail. destruct (mp_pathname m) as [name|]; eexists; walk H4 H7 Hperm; unfold ropt.
    - change (mat (RAlt ?a REmpty) ?p ?c ?k) with (match mat a p c k with Some x => Some x | None => k p c end).
      erewrite mat_cat; [reflexivity|]. change (" "%char :: repeat " "%char pad ++ name) with ((" "%char :: repeat " "%char pad) ++ name). unfold rchar.
      destruct Hn as (Hn1 & Hn2 & (c0 & r0 & Hr0 & Hc0) & _). apply mat_plus_set; [discriminate| | |].
      + constructor; [reflexivity|]. apply Forall_forall. intros x Hx. apply repeat_spec in Hx as ->. reflexivity.
      + rewrite Hr0. cbn. destruct c0 as [[] [] [] [] [] [] [] []]; try reflexivity. discriminate.
      + rewrite <- (app_nil_r name) at 1. apply mat_group; [|rewrite app_nil_r; reflexivity]. intros k' Hk'. apply mat_star_set; [|exact I|exact Hk'].
        apply Forall_forall. intros x Hx. apply negb_true_iff, Ascii.eqb_neq. intros ->. contradiction.
    - reflexivity. }
  unfold re_match, match_at. rewrite E. unfold int_group, text_group, group. cbn [m_groups]. unfold groups. cbn [dget app Nat.eqb].
  rewrite !hexpad_read, str_int_read by lia. cbn [bind]. destruct m as [? ? ? ? ? ? ? [name|]]; reflexivity.
Qed.

(** ** Files *)
Lemma universal_plain s : ~ In CR s -> universal_newlines s = s.
Proof.
  induction s as [|c s IH]; intros H; [reflexivity|]. cbn [universal_newlines]. destruct (Ascii.eqb c CR) eqn:E; [apply Ascii.eqb_eq in E; subst; exfalso; apply H; now left|].
  now rewrite IH by (intros Hi; apply H; now right).
Qed.
Lemma file_lines_cons l rest : ~ In newline l -> file_lines (l ++ newline :: rest) = (l ++ [newline]) :: file_lines rest.
Proof.
  induction l as [|c l IH]; intros H; [reflexivity|]. cbn [file_lines app]. destruct (Ascii.eqb c newline) eqn:E; [apply Ascii.eqb_eq in E; subst; exfalso; apply H; now left|].
  now rewrite IH by (intros Hi; apply H; now right).
Qed.
Lemma line_chars m pad : plain_mapping m -> exists l, maps_line m pad = l ++ [newline] /\ ~ In newline l /\ ~ In CR l.
Proof.
  intros Hm. pose proof Hm as (H1 & H2 & H3 & H4 & H5 & H6 & H7 & Hp & Hn).
  exists (line_head m ++ " "%char :: match mp_pathname m with Some name => repeat " "%char pad ++ name | None => [] end). split.
  { rewrite maps_line_head. rewrite <- app_assoc. reflexivity. }
  assert (Forall (fun c => c <> newline /\ c <> CR) (line_head m ++ " "%char :: match mp_pathname m with Some name => repeat " "%char pad ++ name | None => [] end)) as Hf.
  { assert (forall w n, 0 <= n -> Forall (fun c => c <> newline /\ c <> CR) (hexpad w n)) as Hh.
    { intros w n Hn'. eapply Forall_impl; [|now apply hexpad_hex]. cbn. intros c Hc. now apply hex_plain, plain_char_spec in Hc. }
    assert (forall c, plain_char c = true \/ c = " "%char -> c <> newline /\ c <> CR) as Hch by (intros c [Hc| ->]; [now apply plain_char_spec in Hc|split; discriminate]).
    unfold line_head. do 8 (rewrite <- ?app_assoc; cbn [app]).
    apply Forall_app; split; [now apply Hh|]. constructor; [now apply Hch; left|]. apply Forall_app; split; [now apply Hh|]. constructor; [now apply Hch; right|].
    apply Forall_app; split; [eapply Forall_impl; [|exact Hp]; cbn; intros c Hc; apply Hch; left; now apply permission_plain|]. constructor; [now apply Hch; right|].
    apply Forall_app; split; [now apply Hh|]. constructor; [now apply Hch; right|]. apply Forall_app; split; [apply Hh; lia|]. constructor; [now apply Hch; left|].
    apply Forall_app; split; [apply Hh; lia|]. constructor; [now apply Hch; right|].
    apply Forall_app; split; [eapply Forall_impl; [|now apply str_int_digit]; cbn; intros c Hc; apply Hch; left; now apply digit_plain|]. constructor; [now apply Hch; right|].
    destruct (mp_pathname m) as [name|]; [|constructor]. apply Forall_app. split; [apply Forall_forall; intros c Hc; apply repeat_spec in Hc as ->; now apply Hch; right|].
    destruct Hn as (Hn1 & Hn2 & _). apply Forall_forall. intros c Hc. split; intros ->; contradiction. }
  rewrite Forall_forall in Hf. split; intros Hi; apply Hf in Hi; now destruct Hi.
Qed.
Lemma read_file p decode ms (pads : list nat) data : running_linux p = true ->
  Forall plain_mapping ms -> List.length pads = List.length ms -> data = List.concat (map (fun mp => maps_line (fst mp) (snd mp)) (combine ms pads)) -> decode data = Ok data ->
  readProcessMappings p decode (Ok data) = Ok ms.
Proof.
  intros Hp Hf Hl Hd Hdec. unfold readProcessMappings. rewrite Hp. cbn [negb]. unfold text_of. rewrite Hdec. cbn [bind]. clear Hdec Hp.
  assert (~ In CR data) as Hcr.
  { subst data. clear Hl. intros Hi. apply in_concat in Hi as (l & Hl & Hi). apply in_map_iff in Hl as ([m pad] & <- & Hm). apply in_combine_l in Hm. rewrite Forall_forall in Hf. cbn [fst snd] in Hi.
    destruct (line_chars m pad (Hf m Hm)) as (l' & E & _ & Hc). rewrite E in Hi. apply in_app_or in Hi as [Hi|[Hi|[]]]; [contradiction|discriminate]. }
  rewrite universal_plain by exact Hcr. clear Hcr. subst data. revert pads Hl. induction Hf as [|m ms Hm _ IH]; intros [|pad pads] Hl; try discriminate; [reflexivity|].
  cbn [combine map List.concat fst snd]. destruct (line_chars m pad Hm) as (l & E & Hnl & _). rewrite E, <- app_assoc. cbn [app]. rewrite file_lines_cons by exact Hnl. rewrite <- E. cbn [mapM].
  rewrite parse_line by exact Hm. cbn [bind]. rewrite IH by (cbn in Hl; lia). reflexivity.
Qed.
Lemma big_minor : exists m pad, mp_minor m = 4096 /\ parse_mapping (maps_line m pad) = Err EProcessError.
Proof. exists (Mapping 4096 8192 (T "r--p") 0 8 4096 1234 (Some (T "/bin/ls"))), 3%nat. split; vm_compute; reflexivity. Qed.

(** ** Other facts *)
Lemma contains_spec m a : map_contains m a = true <-> mp_start m <= a < mp_end m.
Proof. unfold map_contains. rewrite andb_true_iff. split; intros H; [destruct H; zb; lia|]. split; blia. Qed.
Lemma findStack_some maps m : findStack maps = Some m -> In m maps /\ mp_pathname m = Some (T "[stack]").
Proof.
  unfold findStack. intros H. apply find_some in H as [H1 H2]. split; [exact H1|]. destruct (mp_pathname m) as [n|]; [|discriminate H2]. apply text_eqb_eq in H2. now rewrite H2.
Qed.
Lemma findStack_none maps : findStack maps = None -> forall m, In m maps -> mp_pathname m <> Some (T "[stack]").
Proof. unfold findStack. intros H m Hm E. pose proof (find_none _ _ H m Hm) as Hf. cbv beta in Hf. rewrite E, text_eqb_refl in Hf. discriminate Hf. Qed.
Lemma formatAddress_chars p a : 0 <= a -> ~ In "-"%char (formatAddress p a) /\ ~ In " "%char (formatAddress p a).
Proof.
  intros H. unfold formatAddress. destruct (a =? 0); cbn [negb]; [split; intros Hi; repeat (destruct Hi as [Hi|Hi]; [discriminate Hi|]); destruct Hi|].
  assert (forall w, Forall (fun c => is_hex_lower c = true) (padl w "0"%char (digits 16 a))) as Hh by (intros w; apply (hexpad_hex w a H)).
  assert (forall c w, is_hex_lower c = false -> c <> "x"%char -> ~ In c (T "0x" ++ padl w "0"%char (digits 16 a))) as Hc.
  { intros c w H1 H2 Hi. apply in_app_or in Hi as [[<-|[<-|[]]]|Hi]; [discriminate H1|now apply H2|]. specialize (Hh w). rewrite Forall_forall in Hh. rewrite Hh in H1 by exact Hi. discriminate H1. }
  unfold formatWordHex, formatUintHex64, formatUintHex32, fmt_int0. destruct (p_64bits p); replace (a <? 0) with false by blia; split; apply Hc; reflexivity || discriminate.
Qed.
Lemma cut_unique (c : ascii) : forall a1 b1 a2 b2, ~ In c a1 -> ~ In c a2 -> a1 ++ c :: b1 = a2 ++ c :: b2 -> a1 = a2 /\ b1 = b2.
Proof.
  intros a1 b1 a2 b2 H1 H2 E. pose proof (proj2 (split1_spec c (a1 ++ c :: b1) a1 b1) (conj eq_refl H1)) as S1.
  pose proof (proj2 (split1_spec c (a2 ++ c :: b2) a2 b2) (conj eq_refl H2)) as S2. rewrite E, S2 in S1. now injection S1.
Qed.
Lemma map_str_inj p m1 m2 : 0 <= mp_start m1 -> 0 <= mp_end m1 -> 0 <= mp_start m2 -> 0 <= mp_end m2 ->
  map_str p m1 = map_str p m2 -> mp_start m1 = mp_start m2 /\ mp_end m1 = mp_end m2.
Proof.
  intros H1 H2 H3 H4. assert (forall m, exists r, map_str p m = formatAddress p (mp_start m) ++ "-"%char :: formatAddress p (mp_end m) ++ " "%char :: r) as Hs.
  { intros m. unfold map_str. destruct (mp_pathname m) as [[|c n]|]; cbn [T list_ascii_of_string]; eexists; rewrite <- ?app_assoc; cbn [app]; rewrite <- ?app_assoc; cbn [app]; reflexivity. }
  destruct (Hs m1) as [r1 E1], (Hs m2) as [r2 E2]. rewrite E1, E2. intros E.
  destruct (formatAddress_chars p _ H1) as [Ha1 _], (formatAddress_chars p _ H3) as [Ha2 _], (formatAddress_chars p _ H2) as [_ Hb1], (formatAddress_chars p _ H4) as [_ Hb2].
  destruct (cut_unique _ _ _ _ _ Ha1 Ha2 E) as [S1 S2]. destruct (cut_unique _ _ _ _ _ Hb1 Hb2 S2) as [S3 S4].
  split; eapply formatAddress_inj; eauto.
Qed.
Lemma trailing_space : exists m m', mp_pathname m = Some (T "/tmp/a ") /\ parse_mapping (maps_line m 3) = Ok m' /\ mp_pathname m' = Some (T "/tmp/a").
Proof. exists (Mapping 4096 8192 (T "r--p") 0 8 1 77 (Some (T "/tmp/a "))), (Mapping 4096 8192 (T "r--p") 0 8 1 77 (Some (T "/tmp/a"))). repeat split; vm_compute; reflexivity. Qed.
Lemma carriage_return : exists m, mp_pathname m = Some (T "/tmp/a" ++ [CR] ++ T "b") /\
  readProcessMappings linux_x86_64 (fun d => Ok d) (Ok (maps_line m 3)) = Err EProcessError.
Proof. exists (Mapping 4096 8192 (T "r--p") 0 8 1 77 (Some (T "/tmp/a" ++ [CR] ++ T "b"))). split; vm_compute; reflexivity. Qed.
Lemma read_not_linux p decode file : running_linux p = false -> readProcessMappings p decode file = Ok [].
Proof. intros H. unfold readProcessMappings. now rewrite H. Qed.
Lemma read_open_error p decode e : running_linux p = true -> readProcessMappings p decode (Err (EOSError e)) = Err EProcessError.
Proof. intros H. unfold readProcessMappings. now rewrite H. Qed.
(** ** Universal newlines *)
Lemma universal_app t s : ~ In CR t -> universal_newlines (t ++ s) = t ++ universal_newlines s.
Proof.
  induction t as [|c t IH]; intros H; [reflexivity|]. cbn [app universal_newlines].
  destruct (Ascii.eqb c CR) eqn:E; [apply Ascii.eqb_eq in E; subst; exfalso; apply H; now left|].
  now rewrite IH by (intros Hi; apply H; now right).
Qed.
Lemma universal_equations t s : ~ In CR t ->
  universal_newlines t = t /\
  universal_newlines (t ++ CR :: newline :: s) = t ++ newline :: universal_newlines s /\
  ((forall r, s <> newline :: r) -> universal_newlines (t ++ CR :: s) = t ++ newline :: universal_newlines s).
Proof.
  intros H. split; [now apply universal_plain|]. split.
  - rewrite universal_app by exact H. reflexivity.
  - intros Hs. rewrite universal_app by exact H. f_equal. destruct s as [|d s]; [reflexivity|].
    cbn [universal_newlines]. change (Ascii.eqb CR CR) with true. cbv iota.
    destruct (Ascii.eqb d newline) eqn:E; [|reflexivity]. apply Ascii.eqb_eq in E. subst d. now destruct (Hs s).
Qed.
Lemma map_text p m : map_str p m = formatAddress p (mp_start m) ++ T "-" ++ formatAddress p (mp_end m) ++
  match mp_pathname m with None | Some [] => [] | Some name => T " => " ++ name end ++ T " (" ++ mp_permissions m ++ T ")".
Proof. unfold map_str. destruct (mp_pathname m) as [[|c n]|]; rewrite <- !app_assoc; reflexivity. Qed.
Lemma dump_maps p maps : Forall2 (fun m line => line = T "MAPS: " ++ map_str p m) maps (dumpMaps p maps).
Proof. unfold dumpMaps. induction maps; constructor; auto. Qed.
(** ** The requests of a search *)
Lemma search_loop_requests read read' pat : (pat <> []) -> forall fuel covered remaining,
  (forall a n, (n = Z.max 65536 (zlen pat) \/ n < Z.max 65536 (zlen pat) /\ a + n = covered + remaining) -> read a n = read' a n) ->
  search_loop read pat fuel covered remaining = search_loop read' pat fuel covered remaining.
Proof.
  intros Hp. induction fuel as [|fuel IH]; intros covered remaining H; [reflexivity|]. cbn [search_loop].
  destruct (zlen pat <=? remaining) eqn:E; [|reflexivity]. apply Z.leb_le in E. cbv zeta.
  assert (buf_len pat = Z.max 65536 (zlen pat)) as Hb. { unfold buf_len. change (64 * 1024) with 65536. destruct (Z.ltb_spec 65536 (zlen pat)); lia. }
  set (requested := if buf_len pat <? remaining then buf_len pat else remaining).
  assert (read covered requested = read' covered requested) as ->.
  { apply H. unfold requested. destruct (Z.ltb_spec (buf_len pat) remaining); [left; exact Hb|]. destruct (Z.eq_dec remaining (buf_len pat)); [left; lia|right; lia]. }
  destruct (read' covered requested) as [data|]; [|reflexivity]. destruct (find_sub pat data) as [o|].
  - rewrite (IH (covered + (Z.of_nat o + zlen pat)) (remaining - (Z.of_nat o + zlen pat))); [reflexivity|]. intros a n Hn. apply H. lia.
  - apply IH. intros a n Hn. apply H. lia.
Qed.
Lemma search_requests read read' pat m : pat <> [] ->
  (forall a n, (n = Z.max 65536 (zlen pat) \/ n < Z.max 65536 (zlen pat) /\ a + n = mp_end m) -> read a n = read' a n) ->
  search read pat m = search read' pat m.
Proof. intros Hp H. unfold search. apply search_loop_requests; [exact Hp|]. intros a n Hn. apply H. lia. Qed.
