(** * ExactProofs8: reading /proc/pid/mem, for any address and any file. *)
From Coq Require Import ZArith List Ascii String Bool Lia.
From Verif Require Import PyBase PyFacts Platform IntModel MemModel MemSpec MemProofs ExactSpec4.
Import ListNotations.
Open Scope Z_scope.

Lemma file_read E a n s : p_os (e_p E) = Linux -> uses_file E s ->
  exists s', s_file s' = FileOpen /\ s_mem s' = s_mem s /\ readBytes E a n s =
    if 2 ^ 63 <=? a then (s', Err EOverflowError)
    else if a <? 0 then (s', Err EProcessError)
    else match e_read E (s_mem s) a n with
         | Err (EOSError _) | Err EValueError => (s', Err EProcessError)
         | Err e => (s', Err e)
         | Ok data => if (zlen data =? 0) && negb (n =? 0) then readBytes_ptrace E a n (set_fallback s') else (s', Ok data)
         end.
Proof.
  intros Ho (Hf & Hs). unfold readBytes, readBytes_procmem. replace (has_ptrace_io (e_p E)) with false by (unfold has_ptrace_io, running_bsd, running_linux; now rewrite Ho).
  replace (has_proc (e_p E)) with true by (unfold has_proc, running_linux; now rewrite Ho). rewrite Hf.
  destruct Hs as [Hs|[Hs He]]; rewrite Hs; [|rewrite He].
  - exists s. split; [exact Hs|]. split; [reflexivity|]. cbv zeta. rewrite Hs. destruct (2 ^ 63 <=? a), (a <? 0); reflexivity.
  - exists (set_file s FileOpen). split; [reflexivity|]. split; [reflexivity|]. cbv zeta. cbn [set_file s_file s_mem]. destruct (2 ^ 63 <=? a), (a <? 0); reflexivity.
Qed.
Lemma high_exact E a n s : p_os (e_p E) = Linux -> uses_file E s -> 2 ^ 63 <= a -> exists s', readBytes E a n s = (s', Err EOverflowError) /\ s_mem s' = s_mem s.
Proof. intros Ho Hu Ha. destruct (file_read E a n s Ho Hu) as (s' & _ & Hm & H). exists s'. rewrite H. destruct (Z.leb_spec (2 ^ 63) a); [auto|lia]. Qed.
Lemma short_exact E a n s d : p_os (e_p E) = Linux -> uses_file E s -> 0 <= a < 2 ^ 63 -> e_read E (s_mem s) a n = Ok d -> d <> [] ->
  exists s', readBytes E a n s = (s', Ok d) /\ s_mem s' = s_mem s.
Proof.
  intros Ho Hu Ha He Hd. destruct (file_read E a n s Ho Hu) as (s' & _ & Hm & H). exists s'. rewrite H. destruct (Z.leb_spec (2 ^ 63) a); [lia|]. destruct (Z.ltb_spec a 0); [lia|]. rewrite He.
  assert (zlen d =? 0 = false) as ->; [|now rewrite Hm]. apply Z.eqb_neq. destruct d; [congruence|]. unfold zlen. cbn [List.length]. lia.
Qed.
Lemma closed_exact E a n s : p_os (e_p E) = Linux -> s_fallback s = false -> s_file s = FileClosed -> readBytes E a n s = (s, Err EProcessError).
Proof.
  intros Ho Hf Hs. unfold readBytes, readBytes_procmem. replace (has_ptrace_io (e_p E)) with false by (unfold has_ptrace_io, running_bsd, running_linux; now rewrite Ho).
  replace (has_proc (e_p E)) with true by (unfold has_proc, running_linux; now rewrite Ho). rewrite Hf, Hs. cbv zeta. now rewrite Hs.
Qed.
Lemma struct_short E a n s d : p_os (e_p E) = Linux -> uses_file E s -> 0 <= a < 2 ^ 63 -> e_read E (s_mem s) a n = Ok d -> d <> [] -> zlen d <= n ->
  (snd (readStruct E a n s) = Err EUndefined <-> zlen d < n) /\ (zlen d = n -> snd (readStruct E a n s) = Ok d).
Proof.
  intros Ho Hu Ha He Hd Hl. destruct (short_exact E a n s d Ho Hu Ha He Hd) as (s' & H & _). unfold readStruct, mbind. rewrite H.
  destruct (Z.ltb_spec (zlen d) n) as [L|L]; (split; [split; intros X; try lia; try reflexivity; try discriminate X|intros X; try lia]).
  cbn [snd ret]. rewrite <- X, pyslice_to by (unfold zlen; lia). unfold zlen. rewrite Nat2Z.id, firstn_all. reflexivity.
Qed.
