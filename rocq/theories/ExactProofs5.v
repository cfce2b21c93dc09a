(** * ExactProofs5: pointers on ARM and PowerPC, the exception of a profiled function. *)
From Coq Require Import ZArith List Ascii String Bool Lia.
From Verif Require Import PyBase PyFacts Platform IntModel IntSpec IntProofs RegModel RegSpec RegProofs RegFinal ToolsModel LogModel LogSpec.
Import ListNotations.
Open Scope Z_scope.

(** ** C66 *)
Lemma arm_sp_exact K p s : p_os p = Linux -> native p -> p_cpu p = ARM32 -> rk_get K = None -> whole p (r_regs s) ->
  exists sz lr sz3 sp, reg_holds p (r_regs s) (T "r14") sz lr /\ reg_holds p (r_regs s) (T "r13") sz3 sp /\ snd (getStackPointer K p s) = Ok lr /\ (snd (getStackPointer K p s) = Ok sp <-> lr = sp).
Proof.
  intros Ho Hn Hc Hk Hw. pose proof (linux_pointers p Ho Hn) as H. apply andb_prop in H as [H _]. apply andb_prop in H as [_ H].
  unfold getStackPointer. assert (CPU_STACK_POINTER p = Some (T "r14")) as E by (unfold CPU_STACK_POINTER; now rewrite Hc). rewrite E in *.
  destruct (name_holds p (r_regs s) (T "r14")) as (sz & lr & H4); [cbn in H; apply andb_prop in H as [H' _]; now apply name_in_spec|].
  assert (snd (getreg K p (T "r14") s) = Ok lr) as G by now rewrite (pointer_get K p s (T "r14") sz lr Ho H Hk Hw H4).
  destruct (name_holds p (r_regs s) (T "r13")) as (sz3 & sp & H3).
  { apply name_in_spec. destruct p as [os cpu big six]. unfold native in Hn. cbn in Ho, Hc, Hn. subst. vm_compute. reflexivity. }
  exists sz, lr, sz3, sp. rewrite G. split; [exact H4|]. split; [exact H3|]. split; [reflexivity|]. split; [now intros [= ->]|now intros ->].
Qed.
Lemma powerpc_fp K p s : is_powerpc (p_cpu p) = true -> getFramePointer K p s = (s, Err EProcessError).
Proof. intros H. unfold getFramePointer, CPU_FRAME_POINTER. destruct (p_cpu p); (discriminate H || reflexivity). Qed.

(** ** C93 *)
Lemma profiler_exact A file e dump stats :
  runProfiler file (@Err A e) dump stats = ([(log_warning, T "Run profiler")], false, Err (if file then e else EOSError 2)) /\
  (snd (runProfiler file (@Err A e) dump stats) = Err e <-> file = true \/ e = EOSError 2).
Proof.
  assert (runProfiler file (@Err A e) dump stats = ([(log_warning, T "Run profiler")], false, Err (if file then e else EOSError 2))) as E by (destruct file; reflexivity).
  split; [exact E|]. rewrite E. cbn [snd]. destruct file; split; auto; [intros [= ->]; auto|intros [H| ->]; [discriminate H|reflexivity]].
Qed.
