(** * ToolsProofs2: locateProgram() for any working directory (C58). *)
From Coq Require Import ZArith List Ascii String Bool Lia.
From Verif Require Import PyBase PyFacts ToolsModel ToolsSpec ToolsProofs.
Import ListNotations.
Open Scope Z_scope.

Lemma path_join_dir d name : isabs name = false -> path_join d name = in_directory d name.
Proof.
  intros H. unfold path_join, in_directory. unfold isabs in H. rewrite H. destruct d as [|x d] using rev_ind; [reflexivity|]. rewrite rev_app_distr. cbn [rev app].
  unfold ends_with. rewrite rev_app_distr. cbn [rev app T list_ascii_of_string starts_with]. rewrite andb_true_r, Ascii.eqb_sym. destruct (d ++ [x]) eqn:E; [now destruct d|]. reflexivity.
Qed.
Lemma locate_dirs cwd dirs ex prog :
  ~ In "/"%char prog -> (forall d, In d dirs -> ~ In ":"%char d) -> dirs <> [] -> join (T ":") dirs <> [] ->
  (exists pre d post, dirs = pre ++ d :: post /\
     locateProgram cwd (Some (join (T ":") dirs)) ex prog = in_directory d prog /\
     ex (in_directory d prog) = true /\ (forall x, In x pre -> ex (in_directory x prog) = false)) \/
  (locateProgram cwd (Some (join (T ":") dirs)) ex prog = prog /\
     forall x, In x dirs -> ex (in_directory x prog) = false).
Proof.
  intros H1 H2 H3 H4. pose proof (bare_not_abs prog H1) as Ha. destruct (locate_path cwd dirs ex prog H1 H2 H3 H4) as [(pre & d & post & Ed & El & Ex & Hp)|[El Hx]].
  - left. exists pre, d, post. rewrite <- path_join_dir by exact Ha. repeat split; auto. intros x Hi. rewrite <- path_join_dir by exact Ha. auto.
  - right. split; [exact El|]. intros x Hi. rewrite <- path_join_dir by exact Ha. auto.
Qed.

Lemma walk_app a b : walk (a ++ [] :: b) = walk (a ++ b).
Proof. unfold walk. now rewrite !fold_left_app. Qed.
Lemma normpath_root s : starts_with (T "/") s = true ->
  normpath s = root_of s ++ join (T "/") (walk (split_char "/" s)) /\ forallb plain (walk (split_char "/" s)) = true.
Proof.
  intros H1. destruct (norm_comps_abs (split_char "/" s) [] eq_refl) as [E1 E2]. unfold walk. rewrite forallb_rev. split; [|exact E2].
  destruct s as [|c s]; [discriminate H1|]. unfold normpath. rewrite H1. unfold root_of.
  assert (starts_with (T "//") (c :: s) && negb (starts_with (T "///") (c :: s)) =
    match s with b :: rest => Ascii.eqb b "/" && negb (match rest with c :: _ => Ascii.eqb c "/" | [] => false end) | [] => false end) as ->.
  { cbn [T list_ascii_of_string starts_with] in H1 |- *. rewrite andb_true_r in H1. rewrite H1. cbn [andb]. destruct s as [|b [|d r]]; cbn [starts_with]; rewrite ?andb_true_r, ?andb_false_r; [reflexivity|rewrite Ascii.eqb_sym; cbn; now rewrite andb_true_r|].
    rewrite (Ascii.eqb_sym b), (Ascii.eqb_sym d). now destruct (Ascii.eqb "/" b), (Ascii.eqb "/" d). }
  destruct s as [|b r]; cbn [andb].
  - cbv zeta. cbn [T list_ascii_of_string]. rewrite E1. reflexivity.
  - destruct (Ascii.eqb b "/" && _); cbv zeta; cbn [T list_ascii_of_string]; rewrite E1; reflexivity.
Qed.
Lemma abs_not_empty s : starts_with (T "/") s = true -> exists r, s = "/"%char :: r.
Proof. intros H. apply starts_with_spec in H as [r ->]. now exists r. Qed.
Lemma root_app d prog : starts_with (T "/") d = true -> isabs prog = false -> root_of (in_directory d prog) = root_of d.
Proof.
  intros H Hp. destruct (abs_not_empty d H) as [r ->]. clear H. unfold in_directory.
  destruct r as [|b [|c r]].
  - cbn [rev app]. rewrite Ascii.eqb_refl. cbn [app root_of]. unfold isabs in Hp. destruct prog as [|x prog]; [reflexivity|]. cbn [T list_ascii_of_string starts_with] in Hp. rewrite andb_true_r, Ascii.eqb_sym in Hp. now rewrite Hp.
  - cbn [rev app]. destruct (Ascii.eqb b "/") eqn:Eb; cbn [app root_of]; rewrite Eb; [|reflexivity]. cbn [andb]. unfold isabs in Hp. destruct prog as [|x prog]; [reflexivity|].
    cbn [T list_ascii_of_string starts_with] in Hp. rewrite andb_true_r, Ascii.eqb_sym in Hp. now rewrite Hp.
  - destruct (rev ("/"%char :: b :: c :: r)) as [|z zs] eqn:E; [apply (f_equal (@rev ascii)) in E; rewrite rev_involutive in E; discriminate E|destruct (Ascii.eqb z "/"); reflexivity].
Qed.
Lemma walk_directory d prog : walk (split_char "/" (in_directory d prog)) = walk (split_char "/" d ++ split_char "/" prog).
Proof.
  unfold in_directory. destruct d as [|x d _] using rev_ind; [reflexivity|]. rewrite rev_app_distr. cbn [rev app]. destruct (Ascii.eqb_spec x "/") as [->|Hx].
  - rewrite <- app_assoc. cbn [app]. rewrite !split_app. cbn [split_char]. rewrite <- app_assoc. cbn [app]. now rewrite walk_app.
  - now rewrite split_app.
Qed.
Lemma locate_anywhere cwd env ex prog : isabs prog = false -> In "/"%char prog -> starts_with (T "/") cwd = true ->
  let comps := walk (split_char "/" cwd ++ split_char "/" prog) in
  locateProgram cwd env ex prog = root_of cwd ++ join (T "/") comps /\
  Forall (fun c => c <> [] /\ c <> T "." /\ c <> T "..") comps.
Proof.
  intros Ha Hi H1. cbv zeta. assert (starts_with (T "/") (in_directory cwd prog) = true) as H2.
  { destruct (abs_not_empty cwd H1) as [r ->]. unfold in_directory. destruct (rev ("/"%char :: r)) as [|z zs] eqn:E; [apply (f_equal (@rev ascii)) in E; rewrite rev_involutive in E; discriminate E|]. destruct (Ascii.eqb z "/"); reflexivity. }
  destruct (normpath_root _ H2) as [E1 E2]. rewrite root_app, walk_directory in E1 by auto. rewrite walk_directory in E2. split.
  - unfold locateProgram. rewrite Ha. destruct (dirname prog) as [|c d] eqn:E; [apply (dirname_empty prog Ha) in E; contradiction|]. rewrite path_join_dir by exact Ha. exact E1.
  - apply Forall_forall. intros c Hc. rewrite forallb_forall in E2. apply E2 in Hc. unfold plain in Hc. rewrite negb_true_iff, !orb_false_iff, !text_eqb_neq in Hc. tauto.
Qed.
