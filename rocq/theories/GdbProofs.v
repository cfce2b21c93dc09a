From Coq Require Import ZArith List Ascii String Bool Lia.
From Verif Require Import PyBase PyFacts PyInt Platform IntModel IntProofs ToolsModel SigModel DbgModel MapModel TraceModel PyEval ExprModel GdbModel GdbSpec.
Import ListNotations.
Open Scope Z_scope.

(** ** The state outside the history *)
Lemma same_refl st : same st st.
Proof. repeat split. Qed.
Lemma same_trans a b c : same a b -> same b c -> same a c.
Proof. intros (H1 & H2 & H3 & H4) (K1 & K2 & K3 & K4). repeat split; congruence. Qed.
Lemma same_push c a st : same st (push c a st).
Proof. repeat split. Qed.
#[global] Hint Resolve same_refl same_push : gdb.

(** ** hexdump *)
Lemma hex_byte_eq c : fmt_int0 16 2 (b2z c) = hex_byte c.
Proof. apply text_eqb_eq. apply (forall_ascii (fun c => text_eqb (fmt_int0 16 2 (b2z c)) (hex_byte c))). vm_compute. reflexivity. Qed.
Lemma formatHexa_eq s : formatHexa s = join (T " ") (map hex_byte s).
Proof. unfold formatHexa. f_equal. apply map_ext. exact hex_byte_eq. Qed.
Lemma dump_line_eq p width a s : dump_line p width a s = item_line p width (Row a s).
Proof. unfold dump_line, item_line. rewrite formatHexa_eq. replace (width * 3 - 1) with (3 * width - 1) by lia. reflexivity. Qed.
Lemma lines_log l a h : lines_of ((CLog l, a) :: h) = lines_of h ++ [l].
Proof. reflexivity. Qed.
Section Hexdump.
  Context (p : platform) (ns : namespace) (env : list (gcall * ans) -> gcall -> ans) (read : Z -> Z -> res (list byte)) (id : nat) (width stop : Z).
  Hypothesis Henv : forall h a n, env h (CReadBytes id a n) = match read a n with Ok s => ABytes s | Err e => ARaise (XErr e) end.
  Hypothesis Hlen : forall a n s, read a n = Ok s -> zlen s = n.
  Hypothesis Herr : forall a n e, read a n = Err e -> is_ptrace_error e = true.
  Hypothesis Hw : 1 <= width.
  Definition inv (address : Z) (error : option (Z * Z)) : Prop :=
    match error with
    | None => True
    | Some (a, b) => b = address /\ a < address /\ (address = stop \/ exists n, 0 <= n /\ address = a + n * width) /\
        forall k, 0 <= k -> a + k * width < address -> exists e, read (a + k * width) (Z.min width (stop - (a + k * width))) = Err e
    end.
  Definition from (address : Z) (error : option (Z * Z)) : Z := match error with Some (a, _) => a | None => address end.
  Definition warned (r : option (Z * Z)) : list gline := match r with Some r => [read_warning p r] | None => [] end.
  Lemma warned_gap a b : read_warning p (a, b) = item_line p width (Gap a b).
  Proof. reflexivity. Qed.
  Lemma show_error_run error st : exists st', show_error p error st = (st', Ret tt) /\ same st st' /\ lines_of (g_hist st') = lines_of (g_hist st) ++ warned error.
  Proof. destruct error as [e|]; cbn [show_error warned]; [|exists st; rewrite app_nil_r; auto with gdb]. eexists. split; [reflexivity|]. split; [apply same_push|reflexivity]. Qed.
  (** One row *)
  Lemma row_ok a error st s : read a (Z.min (stop - a) width) = Ok s ->
    exists st', (gtry (memory <-- ask_bytes env (CReadBytes id a (Z.min (stop - a) width)); _ <-- show_error p error; _ <-- glog (dump_line p width a memory); gret None)
      (fun x => match x with XErr e => if is_ptrace_error e then gret (match error with None => Some (a, a + Z.min (stop - a) width) | Some (a0, _) => Some (a0, a + Z.min (stop - a) width) end) else graise x | _ => graise x end)) st = (st', Ret None)
      /\ same st st' /\ lines_of (g_hist st') = lines_of (g_hist st) ++ warned error ++ [item_line p width (Row a s)].
  Proof.
    intros Hr. unfold gtry, ask_bytes, gbind, ask. rewrite Henv, Hr. cbn [gret]. destruct (show_error_run error (push (CReadBytes id a (Z.min (stop - a) width)) (ABytes s) st)) as (st1 & -> & H1 & H2).
    eexists. split; [reflexivity|]. split; [eapply same_trans; [|apply same_push]; eapply same_trans; [apply same_push|exact H1]|]. cbn [push g_hist]. rewrite lines_log, H2, dump_line_eq, <- app_assoc. reflexivity.
  Qed.
  Lemma row_err a error st e : read a (Z.min (stop - a) width) = Err e ->
    exists st', (gtry (memory <-- ask_bytes env (CReadBytes id a (Z.min (stop - a) width)); _ <-- show_error p error; _ <-- glog (dump_line p width a memory); gret None)
      (fun x => match x with XErr e => if is_ptrace_error e then gret (match error with None => Some (a, a + Z.min (stop - a) width) | Some (a0, _) => Some (a0, a + Z.min (stop - a) width) end) else graise x | _ => graise x end)) st =
      (st', Ret (match error with None => Some (a, a + Z.min (stop - a) width) | Some (a0, _) => Some (a0, a + Z.min (stop - a) width) end))
      /\ same st st' /\ lines_of (g_hist st') = lines_of (g_hist st).
  Proof.
    intros Hr. unfold gtry, ask_bytes, gbind, ask. rewrite Henv, Hr. rewrite (Herr _ _ _ Hr). eexists. split; [reflexivity|]. split; [apply same_push|reflexivity].
  Qed.
  Lemma loop_spec : forall fuel address error st, (Z.to_nat (stop - address) <= fuel)%nat -> address <= stop -> inv address error ->
    exists st' r items, hexdump_loop p env fuel id width address stop error st = (st', Ret r) /\ same st st' /\
      covers items (from address error) stop /\ Forall (in_memory read width stop) items /\ no_gaps_touch items /\
      (match error with Some (a, _) => exists b l, items = Gap a b :: l | None => True end) /\
      lines_of (g_hist st') ++ warned r = lines_of (g_hist st) ++ map (item_line p width) items.
  Proof.
    assert (forall fuel a error st, a = stop -> inv a error -> exists st' r items, hexdump_loop p env fuel id width a stop error st = (st', Ret r) /\ same st st' /\
      covers items (from a error) stop /\ Forall (in_memory read width stop) items /\ no_gaps_touch items /\
      (match error with Some (a, _) => exists b l, items = Gap a b :: l | None => True end) /\ lines_of (g_hist st') ++ warned r = lines_of (g_hist st) ++ map (item_line p width) items) as Hend.
    { intros fuel a error st -> Hi. exists st, error, (match error with Some (a, b) => [Gap a b] | None => [] end).
      split; [destruct fuel; cbn [hexdump_loop]; replace (stop <=? stop) with true by blia; reflexivity|]. split; [apply same_refl|]. destruct error as [[a b]|]; cbn [from inv] in *.
      - destruct Hi as (-> & H1 & H2 & H3). split; [apply (covers_cons (Gap a stop)); [exact H1|constructor]|]. split; [repeat constructor; exact H3|]. split; [repeat split|]. split; [eauto|reflexivity].
      - repeat split; constructor. }
    induction fuel as [|fuel IH]; intros address error st Hf Ha Hi.
    - apply Hend; [lia|exact Hi].
    - destruct (Z.eq_dec address stop) as [E|E]; [now apply Hend|]. cbn [hexdump_loop]. replace (stop <=? address) with false by blia. cbv zeta.
      set (size := Z.min (stop - address) width). assert (1 <= size) as Hs by (unfold size; lia). unfold gbind at 1.
      destruct (read address size) as [s|e] eqn:Er.
      + destruct (row_ok address error st s Er) as (st1 & E1 & S1 & L1). fold size in E1. rewrite E1. destruct (IH (address + size) None st1) as (st2 & r & items & -> & S2 & C & M & N & _ & L2); [lia|unfold size; lia|exact I|].
        pose proof (Hlen _ _ _ Er) as Hl. exists st2, r, ((match error with Some (a, b) => [Gap a b] | None => [] end) ++ Row address s :: items). split; [reflexivity|]. split; [eapply same_trans; eassumption|].
        assert (covers (Row address s :: items) address stop) as C'. { apply (covers_cons (Row address s)); cbn [item_start item_stop]; rewrite Hl; [lia|exact C]. }
        assert (in_memory read width stop (Row address s)) as M'. { cbn [in_memory]. replace (Z.min width (stop - address)) with size by (unfold size; lia). exact Er. }
        rewrite L2, L1, <- app_assoc. destruct error as [[a b]|]; cbn [from inv] in *.
        * destruct Hi as (-> & H1 & H2 & H3). cbn [app]. split; [apply (covers_cons (Gap a address)); assumption|]. split; [repeat constructor; assumption|]. split; [cbn [no_gaps_touch is_gap andb]; repeat split; [destruct items; auto|exact N]|]. split; [eauto|]. cbn [warned map]. rewrite <- warned_gap, <- app_assoc. reflexivity.
        * cbn [app]. split; [exact C'|]. split; [constructor; assumption|]. split; [cbn [no_gaps_touch is_gap andb]; split; [destruct items; auto|exact N]|]. split; [exact I|]. cbn [warned map app]. reflexivity.
      + destruct (row_err address error st e Er) as (st1 & E1 & S1 & L1). fold size in E1. rewrite E1.
        assert (forall k a, 0 <= k -> a + k * width < address + size -> (forall k, 0 <= k -> a + k * width < address -> exists e, read (a + k * width) (Z.min width (stop - (a + k * width))) = Err e) ->
          (exists n, 0 <= n /\ address = a + n * width) -> exists e, read (a + k * width) (Z.min width (stop - (a + k * width))) = Err e) as Hx.
        { intros k a Hk Hlt H (n & Hn & E'). destruct (Z.lt_ge_cases (a + k * width) address) as [Hl|Hl]; [auto|]. assert (k = n) as ->. { unfold size in *. nia. } rewrite <- E'. replace (Z.min width (stop - address)) with size by (unfold size; lia). eauto. }
        set (error' := match error with None => Some (address, address + size) | Some (a0, _) => Some (a0, address + size) end).
        destruct (IH (address + size) error' st1) as (st2 & r & items & -> & S2 & C & M & N & F & L2); [lia|unfold size; lia| |].
        * assert (address + size = stop \/ address + size = address + width) as Hsz by (unfold size; lia).
          unfold error'. destruct error as [[a b]|]; cbn [inv] in *; (split; [reflexivity|]); (split; [lia|]).
          -- destruct Hi as (-> & H1 & [H2|(n & Hn & H2)] & H3); [lia|]. split; [destruct Hsz as [->| ->]; [auto|right; exists (n + 1); lia]|]. intros k Hk Hlt. apply Hx; eauto.
          -- split; [destruct Hsz as [->| ->]; [auto|right; exists 1; lia]|]. intros k Hk Hlt. apply Hx; auto; [intros; nia|exists 0; lia].
        * exists st2, r, items. split; [reflexivity|]. split; [eapply same_trans; eassumption|]. replace (from (address + size) error') with (from address error) in C by (unfold error', from; destruct error as [[a b]|]; reflexivity).
          split; [exact C|]. split; [exact M|]. split; [exact N|]. split; [destruct error as [[a b]|]; [exact F|exact I]|]. rewrite L2, L1. reflexivity.
  Qed.
  Lemma range_spec start limited st : g_process st = id -> start <= stop ->
    exists st' items, hexdump_range p env width start stop limited st = (st', Ret None) /\ same st st' /\
      covers items start stop /\ Forall (in_memory read width stop) items /\ no_gaps_touch items /\
      lines_of (g_hist st') = lines_of (g_hist st) ++ map (item_line p width) items ++ match limited with Some n => [LText (T "(limit to " ++ str_int n ++ T " bytes)")] | None => [] end.
  Proof.
    intros Hid Hs. unfold hexdump_range, gbind at 1, gget. rewrite Hid. destruct (loop_spec (Z.to_nat (stop - start)) start None st) as (st1 & r & items & E & S1 & C & M & N & _ & L1); [lia|exact Hs|exact I|].
    unfold gbind at 1. rewrite E. unfold gbind at 1. destruct (show_error_run r st1) as (st2 & -> & S2 & L2). rewrite L1 in L2. destruct limited as [n|].
    - eexists _, items. split; [reflexivity|]. split; [eapply same_trans; [|apply same_push]; eapply same_trans; eassumption|]. cbn [push g_hist]. rewrite lines_log, L2, <- app_assoc. auto.
    - exists st2, items. split; [reflexivity|]. split; [eapply same_trans; eassumption|]. rewrite app_nil_r. auto.
  Qed.
End Hexdump.
