(** * ChildProofs: lemmas about child.py. *)
From Coq Require Import ZArith List Ascii String Bool Lia.
From Verif Require Import PyBase PyFacts TraceModel ChildModel ChildSpec.
Import ListNotations.
Open Scope Z_scope.

(** [st'] is [st] after the calls [calls] (oldest first); the descriptors are given by [f]; nothing has been written *)
Definition went (st st' : cstate) (calls : list ccall) (f : fdtable) : Prop :=
  c_calls st' = rev calls ++ c_calls st /\ c_pipe st' = c_pipe st /\ forall x, c_fds st' x = f x.
Lemma went_refl st : went st st [] (c_fds st).
Proof. split; [reflexivity|]. split; [reflexivity|]. reflexivity. Qed.
Lemma went_trans a b c l1 l2 f g : went a b l1 f -> went b c l2 g -> went a c (l1 ++ l2) g.
Proof. intros (H1 & H2 & _) (H4 & H5 & H6). split; [rewrite H4, H1, rev_app_distr; now rewrite app_assoc|]. split; [congruence|exact H6]. Qed.
Lemma went_ext a b l f g : (forall x, f x = g x) -> went a b l f -> went a b l g.
Proof. intros E (H1 & H2 & H3). split; [exact H1|]. split; [exact H2|]. intros x. now rewrite H3, E. Qed.

Lemma bind_ret {A B} (m : CM A) (f : A -> CM B) st st1 a : m st = (st1, Ret a) -> cbind m f st = f a st1.
Proof. unfold cbind. now intros ->. Qed.
Lemma bind_raise {A B} (m : CM A) (f : A -> CM B) st st1 x : m st = (st1, Raise x) -> cbind m f st = (st1, Raise x).
Proof. unfold cbind. now intros ->. Qed.
Lemma bind_exec {A B} (m : CM A) (f : A -> CM B) st st1 a e : m st = (st1, Execed a e) -> cbind m f st = (st1, Execed a e).
Proof. unfold cbind. now intros ->. Qed.

Section Child.
  Context (os : cos) (MAXFD : Z).
  Lemma close_went fd st : exists st' o, close os fd st = (st', o) /\ went st st' [CClose fd] (fd_set (c_fds st) fd None) /\
    (o = Ret tt \/ exists e, o = Raise (oserror e)) /\ (c_fds st fd <> None -> co_close os fd = None -> o = Ret tt).
  Proof using.
    unfold close, cbind, did, desc_of, upd, craise, cret. cbn [c_fds c_calls c_pipe]. destruct (c_fds st fd) as [f|] eqn:E.
    - destruct (co_close os fd) as [e|] eqn:Ec.
      + do 2 eexists. split; [reflexivity|]. split; [split; [reflexivity|]; split; reflexivity|]. split; [right; eauto|discriminate].
      + do 2 eexists. split; [reflexivity|]. split; [split; [reflexivity|]; split; reflexivity|]. split; [now left|reflexivity].
    - do 2 eexists. split; [reflexivity|]. split; [|split; [right; eauto|congruence]]. split; [reflexivity|]. split; [reflexivity|]. intros x. cbn. unfold fd_set. destruct (Z.eqb_spec x fd) as [->|]; [exact E|reflexivity].
  Qed.
  Lemma close_ok fd st : c_fds st fd <> None -> co_close os fd = None -> exists st', close os fd st = (st', Ret tt) /\ went st st' [CClose fd] (fd_set (c_fds st) fd None).
  Proof using. intros H1 H2. destruct (close_went fd st) as (st' & o & E & Hw & _ & Ho). rewrite (Ho H1 H2) in E. eauto. Qed.
  Definition closed (l : list Z) (t : fdtable) : fdtable := fun x => if existsb (Z.eqb x) l then None else t x.
  Definition kept (w : Z) (pass : list Z) (fd : Z) : bool := (fd =? w) || existsb (Z.eqb fd) pass.
  Lemma try_close fd st : exists st', ctry (close os fd) (fun x => if is_oserror (px_exn x) then cret tt else craise x) st = (st', Ret tt) /\ went st st' [CClose fd] (fd_set (c_fds st) fd None).
  Proof using.
    destruct (close_went fd st) as (st1 & o & Ec & Hw & Ho & _). exists st1. split; [|exact Hw]. unfold ctry. rewrite Ec. destruct Ho as [->|(e & ->)]; reflexivity.
  Qed.
  Lemma close_loop w pass l : forall st, exists st', cforeach l (fun fd => if kept w pass fd then cret tt else ctry (close os fd) (fun x => if is_oserror (px_exn x) then cret tt else craise x)) st = (st', Ret tt) /\
    went st st' (map CClose (filter (fun fd => negb (kept w pass fd)) l)) (closed (filter (fun fd => negb (kept w pass fd)) l) (c_fds st)).
  Proof using.
    induction l as [|fd l IH]; intros st; cbn [cforeach].
    - exists st. split; [reflexivity|]. apply went_refl.
    - cbn [filter]. destruct (kept w pass fd) eqn:E; cbn [negb].
      + destruct (IH st) as (st' & E3 & Hw2). exists st'. split; [|exact Hw2]. erewrite bind_ret by reflexivity. exact E3.
      + destruct (try_close fd st) as (st1 & Ec & Hw). destruct (IH st1) as (st' & E3 & Hw2). exists st'. split; [erewrite bind_ret by exact Ec; exact E3|].
        refine (went_ext _ _ _ _ _ _ (went_trans _ _ _ [CClose fd] _ _ _ Hw Hw2)). intros x. unfold closed. cbn [existsb]. destruct Hw as (_ & _ & Hf). rewrite Hf. unfold fd_set. destruct (x =? fd); cbn [orb]; [now destruct (existsb _ _)|reflexivity].
  Qed.
  Lemma close_others_went w pass st : exists st', close_others os MAXFD w pass st = (st', Ret tt) /\
    went st st' (map CClose (to_close MAXFD w pass)) (closed (to_close MAXFD w pass) (c_fds st)).
  Proof using.
    destruct (close_loop w pass (map (Z.add 3) (zrange (Z.to_nat (MAXFD - 3)))) st) as (st' & E & Hw). exists st'. split; [exact E|].
    assert (filter (fun fd => negb (kept w pass fd)) (map (Z.add 3) (zrange (Z.to_nat (MAXFD - 3)))) = to_close MAXFD w pass) as <-; [|exact Hw].
    unfold to_close, zrange. rewrite map_map. apply filter_ext. intros x. apply negb_orb.
  Qed.
  Lemma to_close_in w pass fd : In fd (to_close MAXFD w pass) <-> must_close MAXFD w pass fd.
  Proof using.
    unfold to_close, must_close. rewrite filter_In, in_map_iff, andb_true_iff, !negb_true_iff, Z.eqb_neq. split.
    - intros ((n & <- & Hn) & Hw & Hp). apply in_seq in Hn. split; [lia|]. split; [exact Hw|]. intros F. assert (existsb (Z.eqb (3 + Z.of_nat n)) pass = true) as F2 by (apply existsb_exists; exists (3 + Z.of_nat n); rewrite Z.eqb_refl; auto). congruence.
    - intros (Hr & Hw & Hp). split; [exists (Z.to_nat (fd - 3)); split; [lia|]; apply in_seq; lia|]. split; [exact Hw|]. destruct (existsb (Z.eqb fd) pass) eqn:E; [|reflexivity]. apply existsb_exists in E as (y & Hy & E). apply Z.eqb_eq in E as ->. contradiction.
  Qed.
  Lemma existsb_in x l : existsb (Z.eqb x) l = true <-> In x l.
  Proof using. rewrite existsb_exists. split; [intros (y & Hy & E); apply Z.eqb_eq in E; now subst|intros H; exists x; now rewrite Z.eqb_refl]. Qed.
  Lemma inherit_loop l : forall st, Forall (fun fd => c_fds st fd <> None) l -> exists st', cforeach l set_inheritable st = (st', Ret tt) /\
    went st st' (map CInheritable l) (fun x => if existsb (Z.eqb x) l then made_inheritable (c_fds st x) else c_fds st x).
  Proof using.
    induction l as [|fd l IH]; intros st H; cbn [cforeach].
    - exists st. split; [reflexivity|]. apply went_refl.
    - inversion H as [|? ? H1 H2]; subst. destruct (c_fds st fd) as [[f fi]|] eqn:E; [|congruence].
      set (st1 := CState (fd_set (c_fds st) fd (Some (Desc (Z.land f (Z.lnot 1)) fi))) (CInheritable fd :: c_calls st) (c_pipe st)).
      assert (set_inheritable fd st = (st1, Ret tt)) as E1. { unfold set_inheritable, cbind, did, desc_of, upd. cbn [c_fds c_calls c_pipe]. rewrite E. reflexivity. }
      assert (went st st1 [CInheritable fd] (fd_set (c_fds st) fd (Some (Desc (Z.land f (Z.lnot 1)) fi)))) as Hw1 by (split; [reflexivity|]; split; reflexivity).
      destruct (IH st1) as (st' & E2 & Hw2).
      + eapply Forall_impl; [|exact H2]. intros x Hx. cbn. unfold fd_set. destruct (x =? fd); [discriminate|exact Hx].
      + exists st'. split; [erewrite bind_ret by exact E1; exact E2|]. refine (went_ext _ _ _ _ _ _ (went_trans _ _ _ [CInheritable fd] _ _ _ Hw1 Hw2)).
        intros x. cbn [existsb c_fds st1]. unfold fd_set. assert (forall g, Z.land g (Z.lnot 1) = 2 * (g / 2)) as El.
        { intros g. replace (Z.lnot 1) with (Z.lnot (Z.ones 1)) by reflexivity. rewrite <- Z.ldiff_land, Z.ldiff_ones_r by lia. rewrite Z.shiftl_mul_pow2, Z.shiftr_div_pow2 by lia. change (2 ^ 1) with 2. lia. }
        destruct (Z.eqb_spec x fd) as [->|Hne]; cbn [orb]; [|reflexivity]. rewrite E. cbn [made_inheritable d_flags d_file]. rewrite El. destruct (existsb (Z.eqb fd) l); [|reflexivity]. cbn [made_inheritable d_flags d_file].
        do 3 f_equal. rewrite Z.mul_comm, Z.div_mul by lia. reflexivity.
  Qed.
  (** ** Interrupted calls *)
  Lemma read_retry fd size k data rest st : read_no_intr fd size (interrupted_read k data rest) st = (CState (c_fds st) (repeat (CRead fd size) (S k) ++ c_calls st) (c_pipe st), Ret data).
  Proof using.
    revert st. unfold interrupted_read. induction k as [|k IH]; intros st; cbn [repeat app read_no_intr]; [reflexivity|]. unfold cbind, did. rewrite Z.eqb_refl, IH. cbn [c_fds c_calls c_pipe].
    f_equal. f_equal. change (CRead fd size :: c_calls st) with ([CRead fd size] ++ c_calls st). rewrite app_assoc. f_equal. clear. induction k as [|k IH]; [reflexivity|]. cbn [repeat app] in *. now rewrite IH.
  Qed.
  Lemma wait_retry pid options k rest st : waitpid_no_intr pid options (interrupted k rest) st = (CState (c_fds st) (repeat (CWaitpid pid options) (S k) ++ c_calls st) (c_pipe st), Ret tt).
  Proof using.
    revert st. unfold interrupted. induction k as [|k IH]; intros st; cbn [repeat app waitpid_no_intr]; [reflexivity|]. unfold cbind, did. rewrite Z.eqb_refl, IH. cbn [c_fds c_calls c_pipe].
    f_equal. f_equal. change (CWaitpid pid options :: c_calls st) with ([CWaitpid pid options] ++ c_calls st). rewrite app_assoc. f_equal. clear. induction k as [|k IH]; [reflexivity|]. cbn [repeat app] in *. now rewrite IH.
  Qed.
  Lemma write_retry fd data k rest st : write_no_intr fd data (interrupted k rest) st = (CState (c_fds st) (repeat (CWrite fd data) (S k) ++ c_calls st) (c_pipe st ++ data), Ret tt).
  Proof using.
    revert st. unfold interrupted. induction k as [|k IH]; intros st; cbn [repeat app write_no_intr]; [reflexivity|]. unfold cbind at 1, did. rewrite Z.eqb_refl, IH. cbn [c_fds c_calls c_pipe].
    f_equal. f_equal. change (CWrite fd data :: c_calls st) with ([CWrite fd data] ++ c_calls st). rewrite app_assoc. f_equal. clear. induction k as [|k IH]; [reflexivity|]. cbn [repeat app] in *. now rewrite IH.
  Qed.
End Child.
