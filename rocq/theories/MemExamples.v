(** * MemExamples: a concrete process, used to show that hypotheses can be met. *)
From Coq Require Import ZArith List Ascii String Bool Lia.
From Verif Require Import PyBase PyFacts Platform CallModel MemModel MemSpec MemProofs MemProofs2 MemProofs3.
Import ListNotations.
Open Scope Z_scope.

(** One mapped page at 4096 holding 0, 1, 2, ... *)
Definition page_mem : kmem :=
  KMem (fun x => if (4096 <=? x) && (x <? 8192) then Some (z2b x) else None) (fun _ => true).
(** A page at [base] holding only the letter 'a', but for a NUL at address [nul_at]. *)
Definition string_mem (base nul_at : Z) : kmem :=
  KMem (fun x => if (base <=? x) && (x <? base + 4096) then Some (if x =? nul_at then z2b 0 else "a"%char) else None)
       (fun _ => true).
Definition fresh (k : kmem) : pstate := PState k FileNone false.
(** /proc/pid/mem gives the mapped prefix. *)
Definition prefix_env (be : backend) (p : platform) : penv :=
  PEnv be p 77 (Ok tt) (fun k a n => Ok (k_prefix k a (Z.to_nat n))).
(** /proc/pid/mem cannot be opened. *)
Definition denied_env (be : backend) (p : platform) : penv :=
  PEnv be p 77 (Err (EOSError EACCES)) (fun _ _ _ => Err (EOSError EIO)).

Lemma k_prefix_stored k n : forall a, stored k a (k_prefix k a n) /\ (List.length (k_prefix k a n) <= n)%nat.
Proof.
  induction n as [|n IH]; intros a; cbn [k_prefix].
  - split; [intros [|i] b H; discriminate|auto].
  - destruct (k_byte k a) eqn:Eb.
    + destruct (IH (a + 1)) as [H1 H2]. split; [|cbn; lia].
      intros [|i] c H; cbn in H; [injection H as <-; now rewrite Z.add_0_r|].
      rewrite <- (H1 i c H). f_equal. lia.
    + split; [intros [|i] c H; discriminate|cbn; lia].
Qed.
Lemma prefix_env_faithful be p : faithful (prefix_env be p).
Proof.
  intros k a n d Ha Hn [= <-]. destruct (k_prefix_stored k (Z.to_nat n) a) as [H1 H2].
  split; [exact H1|]. split; [rewrite zlen_nat; lia|]. intros Hm. right.
  destruct (mapped_stored k a n Hn Hm) as (d & Hst & Hl).
  assert (k_bytes k a (Z.to_nat n) = Some d) as Hk by (apply k_bytes_spec; split; [auto|rewrite zlen_nat in Hl; lia]).
  rewrite (k_prefix_full _ _ _ _ Hk). exact Hl.
Qed.
Lemma prefix_env_never_fails be p : never_fails (prefix_env be p).
Proof. intros k a n _ _ _. eexists. reflexivity. Qed.
Lemma denied_env_faithful be p : faithful (denied_env be p).
Proof. intros k a n d _ _ H. discriminate. Qed.
Lemma page_mapped p a n : 4096 <= a -> a + n <= 8192 -> words_mapped p page_mem a n.
Proof.
  intros Ha Hn x w Hx [[q Hq] Hw] y Hy. cbn.
  assert (4096 <= y < 8192).
  { unfold word_size in *. destruct (p_64bits p); lia. }
  replace (4096 <=? y) with true by lia. replace (y <? 8192) with true by lia. discriminate.
Qed.
Lemma page_pokable p a n : words_pokable p page_mem a n.
Proof. intros x w _ _ y _. reflexivity. Qed.
