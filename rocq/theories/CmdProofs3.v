(** * CmdProofs3: names that are not options; binary numbers. *)
From Coq Require Import ZArith List Ascii String Bool Lia.
From Verif Require Import PyBase PyFacts PyInt PyIntFacts Platform ToolsModel TabModel LogModel StraceModel CmdModel CmdSpec CmdProofs CmdProofs2.
Import ListNotations.
Open Scope Z_scope.

Lemma all_names options names : In (options, names) [(strace_options, strace_names); (gdb_options, gdb_names)] ->
  forall n, In n (flat_map op_names options) -> one_of names n = true.
Proof.
  intros H n Hn. assert (forallb (one_of names) (flat_map op_names options) = true) as F by (cbn [In] in H; destruct H as [E|[E|[]]]; injection E as <- <-; vm_compute; reflexivity).
  rewrite forallb_forall in F. now apply F.
Qed.
Lemma unknown_long options names s r values largs : In (options, names) [(strace_options, strace_names); (gdb_options, gdb_names)] ->
  starts_with (T "--") s = true -> s <> T "--" -> ~ In "="%char s -> (forall w, one_of names w = true -> starts_with s w = false) ->
  parse_args options (s :: r) values largs = inr 2.
Proof.
  intros Ho Hd Hs Hes Hno. rewrite parse_cons by exact Hs. rewrite Hd. assert (is_dash s = true) as ->.
  { apply starts_with_spec in Hd as (t & ->). reflexivity. }
  unfold long_opt. rewrite split1_none by exact Hes. unfold long_option, match_abbrev.
  assert (forall x, In x (long_names options) -> starts_with s x = false) as Hx.
  { intros x Hx. apply Hno. apply (all_names options names Ho). unfold long_names in Hx. now apply filter_In in Hx as (Hx & _). }
  destruct (mem s (long_names options)) eqn:E.
  { apply mem_In in E. apply Hx in E. assert (starts_with s s = true) by (apply starts_with_spec; exists []; now rewrite app_nil_r). congruence. }
  destruct (filter (starts_with s) (long_names options)) as [|a m] eqn:Ef; [reflexivity|].
  assert (In a (filter (starts_with s) (long_names options))) as Ha by (rewrite Ef; now left). apply filter_In in Ha as (Ha & Ha'). apply Hx in Ha. congruence.
Qed.
Lemma unknown_short options names c s r values largs : In (options, names) [(strace_options, strace_names); (gdb_options, gdb_names)] ->
  c <> "-"%char -> one_of names ["-"%char; c] = false -> parse_args options (("-"%char :: c :: s) :: r) values largs = inr 2.
Proof.
  intros Ho Hc Hno. rewrite parse_cons by (intros E; injection E as E _; congruence). assert (starts_with (T "--") ("-"%char :: c :: s) = false) as ->.
  { change (T "--") with ["-"%char; "-"%char]. cbn [starts_with]. rewrite Ascii.eqb_refl. destruct (Ascii.eqb_spec "-" c); [congruence|reflexivity]. }
  change (is_dash ("-"%char :: c :: s)) with true. cbn iota. cbn [skipn short_opts]. destruct (find_option options ["-"%char; c]) as [o|] eqn:E; [|reflexivity].
  unfold find_option in E. apply find_some in E as (E1 & E2). assert (one_of names ["-"%char; c] = true); [|congruence]. apply (all_names options names Ho). apply in_flat_map. exists o. split; [exact E1|]. now apply mem_In.
Qed.
(** Every name is one of an option *)
Lemma known_names options names n : In (options, names) [(strace_options, strace_names); (gdb_options, gdb_names)] -> one_of names n = true -> exists o, find_option options n = Some o.
Proof.
  intros H Hn. unfold one_of in Hn. apply existsb_exists in Hn as (x & Hx & E). apply text_eqb_eq in E as <-.
  assert (forallb (fun x => match find_option options x with Some _ => true | None => false end) (words names) = true) as F by (cbn [In] in H; destruct H as [E|[E|[]]]; injection E as <- <-; vm_compute; reflexivity).
  rewrite forallb_forall in F. apply F in Hx. destruct (find_option options n); [eauto|discriminate].
Qed.
(** ** Binary numbers *)
Lemma bin_chars n : 0 <= n -> Forall (fun c => c = "0"%char \/ c = "1"%char) (digits 2 n).
Proof.
  intros Hn. apply digits_Forall; [lia| |exact Hn]. intros d Hd. assert (d = 0 \/ d = 1) as [->| ->] by lia; [left|right]; reflexivity.
Qed.
Lemma parse_bin n : 0 <= n -> parse_num (T "0b" ++ digits 2 n) = Ok n.
Proof.
  intros Hn. pose proof (bin_chars n Hn) as Hb. pose proof (digit_chars 2 n ltac:(lia) Hn) as Hc. pose proof (digits_read 2 n ltac:(lia) Hn) as Hr. pose proof (digits_nonempty 2 n) as Hne.
  unfold parse_num. change (firstn 2 (T "0b" ++ digits 2 n)) with (T "0b"). change (text_eqb (lower (T "0b")) (T "0x")) with false. change (text_eqb (lower (T "0b")) (T "0b")) with true. cbn iota.
  change (skipn 2 (T "0b" ++ digits 2 n)) with (digits 2 n). destruct (digits 2 n) as [|u s] eqn:E; [congruence|]. unfold py_int. rewrite strip_hex by exact Hc.
  inversion Hb as [|? ? Hu Hs]; subst. assert (Ascii.eqb u "-" = false /\ Ascii.eqb u "+" = false) as (E1 & E2) by (destruct Hu as [->| ->]; auto). rewrite ?E1, ?E2.
  assert (int_unsigned 2 (u :: s) = Some n) as Hu2; [|rewrite Hu2; reflexivity].
  unfold int_unsigned. destruct s as [|v s].
  - rewrite int_digits_read; [now rewrite Hr|apply plain_no_underscore; exact Hc|right; discriminate].
  - assert (Ascii.eqb u "0" && base_letter 2 v = false) as ->.
    { inversion Hs as [|? ? Hv _]; subst. destruct Hv as [->| ->]; apply andb_false_r. }
    rewrite int_digits_read; [now rewrite Hr|apply plain_no_underscore; exact Hc|right; discriminate].
Qed.
Lemma parse_bin_empty : parse_num (T "0b") = Ok 0.
Proof. reflexivity. Qed.
