(** * ExactProofs9: detach() refused by the kernel. *)
From Coq Require Import ZArith List Ascii String Bool Lia.
From Verif Require Import PyBase PyFacts Platform DbgModel DbgSpec DbgProofs DbgProofs2 DbgProofs3 DbgProofs4 DbgProofs5 DbgFinal DbgFinal2.
Import ListNotations.
Open Scope Z_scope.

Lemma detach_refused K st id q e : nth_error (d_procs st) id = Some q -> pr_is_attached q = true -> pr_running q = true ->
  k_do K (List.length (d_calls st)) (KDetach id (pr_pid q)) = Err e ->
  exists st', detach K id st = (st', Raise (XErr e)) /\ d_list st' = d_list st /\ d_dict st' = d_dict st /\ ~ attached st' id /\
    d_calls st' = KDetach id (pr_pid q) :: d_calls st /\ forall K', detach K' id st' = (st', Ret tt).
Proof.
  intros Hq Ha Hr Hk. rewrite (detach_eq K st id q Hq Ha), Hr, Hk. eexists. split; [reflexivity|]. split; [reflexivity|]. split; [reflexivity|].
  set (st' := add_call _ _). assert (nth_error (d_procs st') id = Some (set_attached false q)) as Hq' by (cbn; now rewrite nth_upd_nth, Nat.eqb_refl, Hq).
  assert (~ attached st' id) as Hn by (intros (q' & H1 & H2); rewrite Hq' in H1; injection H1 as <-; discriminate).
  split; [exact Hn|]. split; [reflexivity|]. intros K'. apply detach_unattached; [exact Hn|congruence].
Qed.
