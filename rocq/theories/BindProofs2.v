(** * BindProofs2: all calls of the project work (C140). *)
From Coq Require Import List Bool PArith Arith Lia.
From Verif Require Import BindNames BindModel BindSpec BindProofs BindCode.
Import ListNotations.
Open Scope pname_scope.

Fixpoint distinct (l : list pname) : bool := match l with [] => true | a :: l => negb (mem a l) && distinct l end.
Lemma distinct_sound l : distinct l = true -> NoDup l.
Proof.
  induction l as [|a l IH]; [constructor|]. cbn [distinct]. intros H. apply andb_prop in H as [H1 H2]. constructor; [|auto]. intros H. apply mem_in in H. rewrite H in H1. discriminate.
Qed.
Definition well_formedb (s : signature) : bool := distinct (s_args s ++ map fst (s_only s)) && (s_defaults s <=? length (s_args s)).
Lemma well_formedb_sound s : well_formedb s = true -> well_formed s.
Proof. intros H. apply andb_prop in H as [H1 H2]. split; [now apply distinct_sound|now apply Nat.leb_le]. Qed.

Definition accepts (s : signature) (n : nat) (keys : list pname) : bool := match bind s (repeat tt n) (map (fun a => (a, tt)) keys) with Some _ => true | None => false end.
Lemma accepts_sound s n keys : well_formed s -> accepts s n keys = true -> accepted s n keys.
Proof.
  intros Hs H. unfold accepts in H. pose proof (proj1 (bind_iff s Hs (repeat tt n) (map (fun a => (a, tt)) keys))) as H1. rewrite repeat_length, map_map, map_id in H1. apply H1.
  destruct (bind s (repeat tt n) _); congruence.
Qed.
Lemma accepted_more s k n keys : accepted s k keys -> s_var s = true -> length (s_args s) <= k -> k <= n -> accepted s n keys.
Proof.
  intros [H1 H2 H3 H4 H5] Hv Hk Hn. constructor; [congruence|exact H2| |exact H4|].
  - intros i a Ha _. apply (H3 i a Ha). enough (i < length (s_args s)) by lia. apply nth_error_Some. congruence.
  - intros a Ha. destruct (H5 a Ha) as [(i & Hi & Hl)|H]; [left; exists i; split; [exact Hi|lia]|now right].
Qed.
Definition good (x : call) (s : signature) : bool :=
  well_formedb s &&
  match c_count x with
  | Exactly n => accepts s (with_object (c_target x) + n) (c_keys x)
  | AtLeast n => accepts s (with_object (c_target x) + n) (c_keys x) && s_var s && (length (s_args s) <=? with_object (c_target x) + n)
  end.
Definition checked (x : call) : bool := match reached functions classes (c_target x) with [] => false | l => forallb (good x) l end.
Lemma checked_sound x : checked x = true -> call_works functions classes x.
Proof.
  unfold checked, call_works. destruct (reached functions classes (c_target x)) as [|s0 l] eqn:E; [discriminate|]. intros H. split; [discriminate|].
  intros s V vals keys Hin (n & Hp & Hl) Hk. rewrite forallb_forall in H. specialize (H s Hin). apply andb_prop in H as [Hw H]. apply well_formedb_sound in Hw.
  enough (bind s vals keys <> None) as Hb by (destruct (bind s vals keys) as [f|]; [now exists f|congruence]).
  apply (bind_iff s Hw). rewrite Hk, Hl. destruct (c_count x) as [k|k]; cbn [possible] in Hp.
  - subst n. now apply accepts_sound.
  - apply andb_prop in H as [H Hle]. apply andb_prop in H as [H Hv]. apply Nat.leb_le in Hle. apply accepted_more with (with_object (c_target x) + k); [now apply accepts_sound|exact Hv|exact Hle|lia].
Qed.
Lemma all_checked : forallb checked calls = true.
Proof. vm_compute. reflexivity. Qed.
Lemma calls_work x : In x calls -> call_works functions classes x.
Proof. intros H. apply checked_sound. pose proof all_checked as E. rewrite forallb_forall in E. auto. Qed.
Lemma all_formed : forallb (fun x => well_formedb (snd x)) (functions ++ flat_map k_methods classes) = true.
Proof. vm_compute. reflexivity. Qed.
Lemma signatures_formed f s : In (f, s) functions \/ (exists k, In k classes /\ In (f, s) (k_methods k)) -> well_formed s.
Proof.
  intros H. apply well_formedb_sound. pose proof all_formed as E. rewrite forallb_forall in E. apply (E (f, s)). apply in_app_iff. destruct H as [H|(k & Hk & H)]; [now left|right]. apply in_flat_map. eauto.
Qed.

(** ** Methods that replace those of the parent *)
Lemma sig_dec (a b : signature) : {a = b} + {a <> b}.
Proof. repeat decide equality. Defined.
Definition replaced (k : cclass) : list (pname * signature * signature) :=
  match k_parent k with None => [] | Some p => flat_map (fun x => map (fun s0 => (fst x, snd x, s0)) (method classes p (fst x))) (k_methods k) end.
Lemma overrides_in k m s s0 : overrides classes k m s s0 -> In (m, s, s0) (replaced k).
Proof.
  intros (_ & H & p & Hp & H0). unfold replaced. rewrite Hp. apply in_flat_map. exists (m, s). split; [exact H|]. cbn [fst snd]. apply in_map_iff. eauto.
Qed.
Definition same (k : cclass) (x : pname * signature * signature) : bool :=
  let '(m, s, s0) := x in Pos.eqb m "__init__" || (Pos.eqb (k_name k) "SyscallTracer" && Pos.eqb m "createChild") || (if sig_dec s s0 then true else false).
Lemma all_same : forallb (fun k => forallb (same k) (replaced k)) classes = true.
Proof. vm_compute. reflexivity. Qed.
Lemma override_accepts k m s s0 : overrides classes k m s s0 -> m <> "__init__" -> ~ (k_name k = "SyscallTracer" /\ m = "createChild") -> forall n keys, accepted s0 n keys -> accepted s n keys.
Proof.
  intros H Hm Hk n keys. pose proof all_same as E. rewrite forallb_forall in E. specialize (E k (proj1 H)). rewrite forallb_forall in E. specialize (E _ (overrides_in _ _ _ _ H)). cbn [same] in E.
  apply orb_prop in E as [E|E]; [apply orb_prop in E as [E|E]|].
  - apply Pos.eqb_eq in E. contradiction.
  - apply andb_prop in E as [E1 E2]. apply Pos.eqb_eq in E1, E2. tauto.
  - destruct (sig_dec s s0) as [->|]; [auto|discriminate].
Qed.
Lemma create_child : exists k s s0, k_name k = "SyscallTracer" /\ overrides classes k "createChild" s s0 /\ accepted s0 3 [] /\ ~ accepted s 3 [].
Proof.
  exists cls_SyscallTracer, (Sig ["self"; "program"] 0 false [] false), (Sig ["self"; "arguments"; "env"] 1 false [] false). split; [reflexivity|]. split.
  - split; [vm_compute; tauto|]. split; [vm_compute; tauto|]. exists "Application". split; [reflexivity|]. vm_compute. now left.
  - split; [apply accepts_sound; [apply well_formedb_sound|]; reflexivity|]. intros [H _ _ _ _]. specialize (H eq_refl). cbn in H. lia.
Qed.
Lemma bind_exists s V (vals : list V) keys : well_formed s -> ((exists f, bind s vals keys = Some f) <-> accepted s (length vals) (map fst keys)).
Proof.
  intros Hs. rewrite <- (bind_iff s Hs vals keys). destruct (bind s vals keys) as [f|]; split; intros H; try discriminate; eauto; [destruct H as [? H]; discriminate|congruence].
Qed.
Lemma cont_two : ~ call_works functions classes (Call (TMethod "PtraceProcess" "cont") (Exactly 2) []).
Proof.
  intros [_ H]. specialize (H (Sig ["self"; "signum"] 1 false [] false) unit [tt; tt; tt] []). destruct H as [f H]; [vm_compute; now left|exists 2; split; reflexivity|reflexivity|discriminate H].
Qed.
