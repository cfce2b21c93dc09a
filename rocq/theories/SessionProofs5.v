(** * SessionProofs5: what the commands on breakpoints say they did. *)
From Coq Require Import ZArith List Bool.
From Verif Require Import PyBase Platform CallModel MemModel StructModel RegModel BreakModel BreakSpec BreakFinal SessionModel.
Import ListNotations.
Open Scope Z_scope.

Lemma find_none st a : findBreakpoint a st = None -> forall bp, live st bp -> ~ covers bp a.
Proof. intros F bp L C. assert (X : exists id, findBreakpoint a st = Some id) by (apply find_iff; now exists bp). destruct X as [id X]. congruence. Qed.
Lemma delete_result E K a st st' o : delete_breakpoint E K a st = (st', Ok o) ->
  match o with
  | Some id => exists bp, nth_error (b_objs st) id = Some bp /\ live st bp /\ covers bp a /\ desinstall E K id false st = (st', Ok tt)
  | None => st' = st /\ forall bp, live st bp -> ~ covers bp a
  end.
Proof.
  unfold delete_breakpoint. destruct (findBreakpoint a st) as [id|] eqn:F.
  - destruct (desinstall E K id false st) as [st1 [[]|e]] eqn:D; [|discriminate]. intros H. injection H as <- <-. destruct (find_live _ _ _ F) as (bp & A & B & C). now exists bp.
  - intros H. injection H as <- <-. split; [reflexivity|now apply find_none].
Qed.
Lemma hit_result E K st st' o : hit_breakpoint E K st = (st', Ok o) -> exists rg ip, getInstrPointer K (e_p E) (b_regs st) = (rg, Ok ip) /\
  let a := if is_powerpc (p_cpu (e_p E)) then ip else ip - 1 in
  match o with
  | Some id => exists bp, nth_error (b_objs st) id = Some bp /\ live st bp /\ covers bp a /\ desinstall E K id true (with_regs st rg) = (st', Ok tt)
  | None => st' = with_regs st rg /\ forall bp, live st bp -> ~ covers bp a
  end.
Proof.
  unfold hit_breakpoint. destruct (getInstrPointer K (e_p E) (b_regs st)) as [rg [ip|e]] eqn:G; [|discriminate]. intros H. exists rg, ip. split; [reflexivity|]. cbv zeta in *.
  set (a := if is_powerpc (p_cpu (e_p E)) then ip else ip - 1) in *. destruct (findBreakpoint a (with_regs st rg)) as [id|] eqn:F.
  - destruct (desinstall E K id true (with_regs st rg)) as [st1 [[]|e]] eqn:D; [|discriminate]. injection H as <- <-. destruct (find_live _ _ _ F) as (bp & A & B & C). now exists bp.
  - injection H as <- <-. split; [reflexivity|]. exact (find_none (with_regs st rg) a F).
Qed.
Lemma step_is E K a size go st :
  (forall st1 e, createBreakpoint E a size st = (st1, Err e) -> step_over E K a size go st = (st1, Err e)) /\
  (forall st1 id, createBreakpoint E a size st = (st1, Ok id) -> step_over E K a size go st = desinstall E K id true (go st1)).
Proof. unfold step_over. split; intros st1 x ->; reflexivity. Qed.
