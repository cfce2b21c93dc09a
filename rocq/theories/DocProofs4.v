(** * DocProofs4: the examples of ptrace. *)
From Coq Require Import ZArith List Ascii String Bool Lia.
From Verif Require Import PyBase PyFacts HostModel ToolsModel DocModel DocSpec DocProofs DocProofs2 DocProofs3.
Import ListNotations.
Open Scope Z_scope.

(** ** Docstrings that can be read, by computation *)
Fixpoint cut (lines : list text) (cur : option (nat * text * list text * list text)) : list piece :=
  let close := match cur with Some (n, f, m, o) => [Shown n f m o] | None => [] end in
  match lines with
  | [] => close
  | line :: lines =>
      if is_ps1 line then close ++ cut lines (Some (indent_of line, skipn (indent_of line + 4) line, [], []))
      else match cur with
           | None => Prose line :: cut lines None
           | Some (n, f, m, o) =>
               if is_blank line then close ++ Prose line :: cut lines None
               else if is_ps2 line then cut lines (Some (n, f, m ++ [skipn (n + 4) line], o))
               else cut lines (Some (n, f, m, o ++ [skipn n line]))
           end
  end.
Definition plain_b (p : piece) : bool :=
  match p with
  | Prose line => negb (is_ps1 line)
  | Shown _ _ _ out => forallb (fun line => negb (is_ps1 line) && negb (is_blank line)) out && match out with line :: _ => negb (is_ps2 line) | [] => true end
  end.
Definition separate_b (p : piece) (rest : list piece) : bool :=
  match p, rest with Shown _ _ _ _, Prose line :: _ => is_blank line | _, _ => true end.
Fixpoint written_b (l : list piece) : bool := match l with [] => true | p :: l => plain_b p && separate_b p l && written_b l end.
Definition reads_b (doc : text) : bool :=
  let l := cut (split_char (z2b 10) doc) None in
  match l with [] => false | _ => true end && written_b l && forallb (fun p => forallb (fun line => negb (existsb (Ascii.eqb (z2b 10)) line)) (written_lines p)) l &&
  text_eqb doc (join [z2b 10] (flat_map written_lines l)).
Lemma not_iff b P : (b = true <-> P) -> negb b = true -> ~ P.
Proof. intros H N P'. apply H in P'. rewrite P' in N. discriminate. Qed.
Lemma plain_ok p : plain_b p = true -> plain p.
Proof.
  destruct p as [line|n f m out]; cbn [plain_b plain]; intros H; [exact (not_iff _ _ (ps1_iff line) H)|]. apply andb_prop in H as [H1 H2]. rewrite forallb_forall in H1. split.
  - intros line I. specialize (H1 line I). apply andb_prop in H1 as [A B]. split; [exact (not_iff _ _ (ps1_iff line) A)|exact (not_iff _ _ (blank_iff line) B)].
  - intros line E. destruct out as [|x out]; [discriminate|]. injection E as <-. exact (not_iff _ _ (ps2_iff x) H2).
Qed.
Lemma written_ok l : written_b l = true -> well_written l.
Proof.
  induction l as [|p l IH]; [easy|]. cbn [written_b]. intros H. apply andb_prop in H as [H W]. apply andb_prop in H as [P S]. split; [now apply plain_ok|]. split; [|now apply IH].
  destruct p as [line|n f m out]; [exact I|]. destruct l as [|[line|] l]; cbn in *; try exact I. now apply blank_iff.
Qed.
Lemma reads_ok doc : reads_b doc = true -> exists l, reads doc l.
Proof.
  unfold reads_b. set (l := cut _ _). intros H. apply andb_prop in H as [H E]. apply andb_prop in H as [H O]. apply andb_prop in H as [N W]. exists l. split.
  - intros ->. discriminate N.
  - split; [now apply written_ok|]. split; [|now apply text_eqb_eq]. intros p line I J F. rewrite forallb_forall in O. specialize (O p I). rewrite forallb_forall in O.
    specialize (O line J). assert (X : existsb (Ascii.eqb (z2b 10)) line = true) by (apply existsb_exists; eexists; split; [exact F|apply Ascii.eqb_refl]). now rewrite X in O.
Qed.
Definition readable_b (m : pymod) : bool := forallb (fun x => match m_doc x with Some doc => reads_b doc | None => true end) (mod_members m).
Lemma readable_ok m : readable_b m = true -> readable m.
Proof. intros H x doc I _ D. unfold readable_b in H. rewrite forallb_forall in H. specialize (H x I). rewrite D in H. now apply reads_ok. Qed.
Definition right_b (exec : text -> text -> nat -> list text -> list text) (m : pymod) : bool := match testmod exec m with Ok (f, _) => f =? 0 | Err _ => false end.
Lemma right_ok exec m : readable_b m = true -> right_b exec m = true -> right_examples exec m.
Proof. intros R H. unfold right_b in H. destruct (testmod_right exec m (readable_ok m R)) as (f & t & E & I). rewrite E in H. now apply I, Z.eqb_eq. Qed.
Lemma wrong_ok exec m : readable_b m = true -> right_b exec m = false -> ~ right_examples exec m.
Proof. intros R H W. unfold right_b in H. destruct (testmod_right exec m (readable_ok m R)) as (f & t & E & I). rewrite E in H. apply I in W. now apply Z.eqb_neq in H. Qed.

(** ** The modules *)
Fixpoint all_modules (fuel : nat) (m : pymod) : list pymod :=
  match fuel with O => [] | S fuel => m :: flat_map (fun x => all_modules fuel (snd x)) (mod_sub m) end.
Lemma at_in m path m' : mod_at m path m' -> forall fuel, (List.length path < fuel)%nat -> In m' (all_modules fuel m).
Proof.
  induction 1 as [m|name members before c m after path m' N A IH]; intros [|fuel] L; cbn [List.length] in L; try lia; cbn [all_modules]; [now left|]. right.
  cbn [mod_sub]. apply in_flat_map. exists (c, m). split; [apply in_or_app; right; now left|]. apply IH. lia.
Qed.
Fixpoint height (m : pymod) : nat := match m with Mod _ _ sub => S (list_max (map (fun x => height (snd x)) sub)) end.
Lemma at_height m path m' : mod_at m path m' -> (List.length path < height m)%nat.
Proof.
  induction 1 as [[name members sub]|name members before c m after path m' N A IH]; cbn [List.length height]; [lia|].
  rewrite map_app, list_max_app. cbn [map list_max fold_right snd]. lia.
Qed.
Lemma ptrace_all path m : mod_at ptrace_package path m -> readable_b m = true /\ right_b ptrace_exec m = true.
Proof.
  intros A. pose proof (at_in _ _ _ A 3) as I. pose proof (at_height _ _ _ A) as H. change (height ptrace_package) with 3%nat in H. specialize (I H).
  assert (F : forallb (fun m => readable_b m && right_b ptrace_exec m) (all_modules 3 ptrace_package) = true) by (vm_compute; reflexivity).
  rewrite forallb_forall in F. specialize (F m I). now apply andb_prop in F.
Qed.
Lemma ptrace_right path m : mod_at ptrace_package path m -> readable m /\ right_examples ptrace_exec m.
Proof. intros A. destruct (ptrace_all path m A) as [R H]. split; [now apply readable_ok|now apply right_ok]. Qed.

Lemma walk_found m path m' : walk m path = Ok m' -> mod_at m path m'.
Proof.
  revert m. induction path as [|c path IH]; intros m; cbn [walk]; [intros H; injection H as <-; constructor|].
  destruct (dget text_eqb c (mod_sub m)) as [m1|] eqn:D; [|discriminate]. intros W. apply IH in W. destruct m as [name members sub]. cbn [mod_sub] in D.
  assert (S : exists before after, sub = before ++ (c, m1) :: after /\ ~ In c (map fst before)).
  { clear IH W. induction sub as [|[k v] sub IH]; [discriminate|]. cbn [dget] in D. destruct (text_eqb c k) eqn:Q.
    - apply text_eqb_eq in Q as <-. injection D as <-. exists [], sub. split; [reflexivity|easy].
    - destruct (IH D) as (b & a & -> & N). exists ((k, v) :: b), a. split; [reflexivity|]. intros [E|E]; [|contradiction]. cbn in E. subst k. now rewrite text_eqb_refl in Q. }
  destruct S as (b & a & -> & N). now constructor.
Qed.
Lemma imports_ok sys_path comps m : (exists path, comps = T "ptrace" :: path /\ walk ptrace_package path = Ok m) ->
  forallb (fun c => negb (existsb (Ascii.eqb "."%char) c)) comps = true -> imports ptrace_import sys_path (join (T ".") comps) m.
Proof.
  intros (path & -> & W) D. exists ptrace_package, (T "ptrace"), path.
  assert (N : forall c', In c' (T "ptrace" :: path) -> ~ In "."%char c').
  { intros c' I F. rewrite forallb_forall in D. specialize (D c' I). assert (X : existsb (Ascii.eqb "."%char) c' = true) by (apply existsb_exists; eexists; split; [exact F|apply Ascii.eqb_refl]). now rewrite X in D. }
  split; [|split; [reflexivity|split; [exact N|now apply walk_found]]].
  unfold ptrace_import. change (T ".") with ["."%char]. rewrite split_join; [now rewrite text_eqb_refl|discriminate|exact N].
Qed.
Lemma tested_imports sys_path n : In n tested_modules -> exists path m, imports ptrace_import sys_path n m /\ mod_at ptrace_package path m.
Proof.
  assert (X : forall comps path m, comps = T "ptrace" :: path -> walk ptrace_package path = Ok m -> forallb (fun c => negb (existsb (Ascii.eqb "."%char) c)) comps = true ->
    exists path m, imports ptrace_import sys_path (join (T ".") comps) m /\ mod_at ptrace_package path m).
  { intros comps path m -> W D. exists path, m. split; [apply imports_ok; [exists path; now split|exact D]|now apply walk_found]. }
  intros I. cbn [tested_modules map] in I. repeat destruct I as [<-|I]; [..|destruct I].
  - change (T "ptrace.ctypes_tools") with (join (T ".") [T "ptrace"; T "ctypes_tools"]). eapply X; [reflexivity..|vm_compute; reflexivity].
  - change (T "ptrace.debugger.parse_expr") with (join (T ".") [T "ptrace"; T "debugger"; T "parse_expr"]). eapply X; [reflexivity..|vm_compute; reflexivity].
  - change (T "ptrace.logging_tools") with (join (T ".") [T "ptrace"; T "logging_tools"]). eapply X; [reflexivity..|vm_compute; reflexivity].
  - change (T "ptrace.signames") with (join (T ".") [T "ptrace"; T "signames"]). eapply X; [reflexivity..|vm_compute; reflexivity].
  - change (T "ptrace.syscall.socketcall") with (join (T ".") [T "ptrace"; T "syscall"; T "socketcall"]). eapply X; [reflexivity..|vm_compute; reflexivity].
  - change (T "ptrace.tools") with (join (T ".") [T "ptrace"; T "tools"]). eapply X; [reflexivity..|vm_compute; reflexivity].
Qed.
Lemma ptrace_tested sys_path a c : c <> "/"%char -> main ptrace_exec ptrace_import sys_path (a ++ [c] ++ T "/test_doc.py") = (report tested_modules, Ok tt).
Proof.
  intros C. apply main_right; [exact C|]. intros n I. destruct (tested_imports (sys_path ++ [a ++ [c]]) n I) as (path & m & J & A). exists m.
  destruct (ptrace_right path m A). now repeat split.
Qed.
(** the example of ip_int2str is not tested *)
Definition broken_exec (modname name : text) (n : nat) (src : list text) : list text :=
  if text_eqb name (T "ip_int2str") then [T "'1.0.0.127'"] else ptrace_exec modname name n src.
Definition socket_struct : list text := [T "syscall"; T "socketcall_struct"].
Lemma untested : exists exec sys_path file path m, mod_at ptrace_package path m /\ readable m /\ ~ right_examples exec m /\
  main exec ptrace_import sys_path file = (report tested_modules, Ok tt).
Proof.
  destruct (walk ptrace_package socket_struct) as [m|] eqn:W; [|vm_compute in W; discriminate]. exists broken_exec, [], (T "/src/test_doc.py"), socket_struct, m.
  assert (R : readable_b m = true /\ right_b broken_exec m = false) by (vm_compute in W; injection W as <-; split; vm_compute; reflexivity).
  destruct R as [R1 R2]. split; [now apply walk_found|]. split; [now apply readable_ok|]. split; [now apply wrong_ok|]. vm_compute. reflexivity.
Qed.

(** ** FakeProcess *)
Lemma fake_same regs name value : fake_getreg (fake_setreg regs name value) name = Ok value.
Proof.
  unfold fake_getreg, fake_setreg. induction regs as [|[k v] regs IH]; cbn [dset dget]; [now rewrite text_eqb_refl|].
  destruct (text_eqb name k) eqn:Q; cbn [dget]; rewrite Q; [reflexivity|exact IH].
Qed.
Lemma fake_other regs name value other : other <> name -> fake_getreg (fake_setreg regs name value) other = fake_getreg regs other.
Proof.
  intros N. unfold fake_getreg, fake_setreg. induction regs as [|[k v] regs IH]; cbn [dset dget].
  - destruct (text_eqb other name) eqn:Q; [apply text_eqb_eq in Q; congruence|reflexivity].
  - destruct (text_eqb name k) eqn:Q; cbn [dget]; destruct (text_eqb other k) eqn:Q2; try reflexivity; try exact IH.
    apply text_eqb_eq in Q, Q2. congruence.
Qed.
(** the last value set, KeyError if there is none *)
Lemma fake_registers sets name : fake_getreg (fold_left (fun regs nv => fake_setreg regs (fst nv) (snd nv)) sets FakeProcess) name =
  match find (fun nv : text * Z => text_eqb (fst nv) name) (rev sets) with Some nv => Ok (snd nv) | None => Err EKeyError end.
Proof.
  induction sets as [|[k v] sets IH] using rev_ind; [reflexivity|]. rewrite fold_left_app, rev_app_distr. cbn [fold_left rev List.app find fst snd].
  destruct (text_eqb k name) eqn:Q; [apply text_eqb_eq in Q as ->; apply fake_same|]. rewrite fake_other; [exact IH|]. intros ->. now rewrite text_eqb_refl in Q.
Qed.

(** ** Dates *)
Lemma timestamp_local zone t t' : exists_moment t -> exists_moment t' -> since_1970 t' = since_1970 t + zone 0 * 1000000 ->
  (do u <- timestampUNIX_us zone (since_1970 t) true; Ok (repr_datetime u)) = Ok (shown_moment t').
Proof.
  intros X X' E. destruct (date_range t X) as [A B]. destruct (date_range t' X') as [A' B'].
  unfold timestampUNIX_us, timedelta_us, add_date_us, DELTA_MIN, DELTA_MAX, LOCAL_TIMEZONE_OFFSET in *.
  destruct ((-999999999 * 86400 * US <=? since_1970 t) && (since_1970 t <? (999999999 * 86400 + 86399 + 1) * US)) eqn:Q.
  2:{ apply andb_false_iff in Q as [Q|Q]; [apply Z.leb_gt in Q|apply Z.ltb_ge in Q]; unfold US, DATE_MIN, DATE_MAX in *; lia. }
  cbn [bind]. rewrite Z.add_0_l.
  destruct ((DATE_MIN * US <=? since_1970 t) && (since_1970 t <? (DATE_MAX + 1) * US)) eqn:Q2.
  2:{ apply andb_false_iff in Q2 as [Q2|Q2]; [apply Z.leb_gt in Q2|apply Z.ltb_ge in Q2]; lia. }
  cbn [bind]. replace (since_1970 t + zone 0 * US) with (since_1970 t') by (rewrite E; reflexivity).
  destruct ((DATE_MIN * US <=? since_1970 t') && (since_1970 t' <? (DATE_MAX + 1) * US)) eqn:Q3.
  2:{ apply andb_false_iff in Q3 as [Q3|Q3]; [apply Z.leb_gt in Q3|apply Z.ltb_ge in Q3]; lia. }
  cbn [bind]. now rewrite repr_moment.
Qed.
(** rounded to the nearest microsecond, to the even one of two *)
Lemma float_nearest n k : 0 <= k -> let us := float_us n k in
  2 * Z.abs (n * 1000000 - us * 2 ^ k) <= 2 ^ k /\ (2 * Z.abs (n * 1000000 - us * 2 ^ k) = 2 ^ k -> Z.even us = true).
Proof.
  intros K. unfold float_us, US. cbv zeta. assert (D : 0 < 2 ^ k) by (apply Z.pow_pos_nonneg; lia). set (d := 2 ^ k) in *.
  pose proof (Z.div_mod (n * 1000000) d ltac:(lia)) as E. pose proof (Z.mod_pos_bound (n * 1000000) d D) as B.
  set (q := n * 1000000 / d) in *. set (r := (n * 1000000) mod d) in *. rewrite E.
  destruct (Z.ltb_spec (2 * r) d) as [L|L]; [split; [nia|]; intros F; assert (F2 : 2 * r = d) by nia; lia|].
  destruct (Z.ltb_spec d (2 * r)) as [G|G].
  - split; [nia|]. intros F. assert (F2 : 2 * (d - r) = d) by nia. lia.
  - destruct (Z.even q) eqn:V; [split; [nia|intros _; exact V]|]. split; [nia|]. intros _. now rewrite Z.even_add, V.
Qed.
