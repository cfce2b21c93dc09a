From Coq Require Import ZArith List Ascii String Bool Lia.
From Verif Require Import PyBase PyFacts Platform IntModel MapModel TraceModel TraceSpec.
Import ListNotations.
Open Scope Z_scope.

Lemma word_pos p : 0 < word_size p.
Proof. unfold word_size. destruct (p_64bits p); lia. Qed.
(** ** C42 *)
Lemma arguments_spec p read n : forall fp args, read_arguments p read n (fp + word_size p) = Ok args -> argument_words p read fp n args.
Proof.
  induction n as [|n IH]; intros fp args; cbn [read_arguments].
  - intros [= <-]. split; [cbn; lia|]. split; [intros [|i] w H; discriminate H|cbn; lia].
  - destruct (read (fp + word_size p + word_size p)) as [w|e] eqn:E.
    + destruct (read_arguments p read n (fp + word_size p + word_size p)) as [rest|e] eqn:Er; [|discriminate]. cbn [bind]. intros [= <-]. apply (IH (fp + word_size p)) in Er as (H1 & H2 & H3).
      split; [cbn; lia|]. split.
      * intros [|i] v Hi; cbn [nth_error] in Hi.
        { injection Hi as <-. replace (fp + (2 + Z.of_nat 0) * word_size p) with (fp + word_size p + word_size p) by lia. exact E. }
        { apply H2 in Hi. rewrite <- Hi. f_equal. lia. }
      * intros Hlt. destruct H3 as (e & He & Hp); [cbn in Hlt; lia|]. exists e. split; [|exact Hp]. rewrite <- He. f_equal. rewrite zlen_cons. lia.
    + destruct (is_ptrace_error e) eqn:Ee; [|discriminate]. intros [= <-]. split; [cbn; lia|]. split; [intros [|i] w H; discriminate H|].
      intros _. exists e. split; [|exact Ee]. rewrite <- E. f_equal. rewrite zlen_nil. lia.
Qed.
Definition frame_of (p : platform) (read : Z -> res Z) (max_args : Z) (x : Z * Z) (f : frame) : Prop :=
  fr_ip f = fst x /\ argument_words p read (snd x) (Z.to_nat (argument_count p read max_args (snd x))) (fr_arguments f).
Lemma loop_frames p read max_args max_depth : forall fuel ip fp depth frames t, depth < max_depth ->
  backtrace_loop p read fuel max_args max_depth ip fp depth = Ok (frames, t) ->
  exists l z, chain p read (ip, fp) l z /\ Forall2 (frame_of p read max_args) l frames /\ zlen l <= max_depth - depth /\
    (t = true -> zlen l = max_depth - depth /\ exists y, next_frame p read z y) /\ (t = false -> forall y, ~ next_frame p read z y).
Proof.
  induction fuel as [|fuel IH]; intros ip fp depth frames t Hd; cbn [backtrace_loop]; [discriminate|].
  replace (max_depth <=? depth) with false by blia.
  assert (forall next, next = match read fp with Ok w => if w =? 0 then None else Some w | Err _ => None end ->
    (match next with Some w => if fp =? 0 then 0 else Z.min ((w - fp) / word_size p - 2) max_args | None => 0 end) = argument_count p read max_args fp) as Hcount.
  { intros next ->. unfold argument_count. destruct (read fp) as [w|e]; [|reflexivity]. destruct (w =? 0), (fp =? 0); reflexivity. }
  destruct (match read fp with Ok w => Ok (Some w) | Err e => if is_ptrace_error e then Ok None else Err e end) as [nextfp|e] eqn:En; [|discriminate]. cbn [bind].
  set (next := match nextfp with Some w => if w =? 0 then None else Some w | None => None end).
  assert (next = match read fp with Ok w => if w =? 0 then None else Some w | Err _ => None end) as Hnext.
  { unfold next. destruct (read fp) as [w|e]; [injection En as <-; reflexivity|]. destruct (is_ptrace_error e); [injection En as <-; reflexivity|discriminate]. }
  rewrite (Hcount next Hnext). clear Hcount En. clearbody next. unfold getBacktraceFrame. destruct (read_arguments p read _ _) as [args|e] eqn:Ea; [|discriminate]. cbn [bind].
  apply arguments_spec in Ea. destruct next as [w|].
  2:{ intros [= <- <-]. exists [(ip, fp)], (ip, fp). split; [constructor|]. split; [constructor; [split; [reflexivity|exact Ea]|constructor]|]. split; [rewrite zlen_cons, zlen_nil; lia|]. split; [discriminate|].
      intros _ y (H1 & H2 & _). cbn in H1. rewrite H1 in Hnext. replace (snd y =? 0) with false in Hnext by blia. discriminate. }
  assert (read fp = Ok w /\ w <> 0) as [Hr Hw].
  { destruct (read fp) as [v|]; [|discriminate]. destruct (v =? 0) eqn:Ev; [discriminate|]. injection Hnext as ->. zb. auto. }
  destruct (read (fp + word_size p)) as [ip'|e] eqn:Ei; [|discriminate]. cbn [bind]. destruct (ip' =? max_uint p) eqn:Em; zb.
  - intros [= <- <-]. exists [(ip, fp)], (ip, fp). split; [constructor|]. split; [constructor; [split; [reflexivity|exact Ea]|constructor]|]. split; [rewrite zlen_cons, zlen_nil; lia|]. split; [discriminate|].
    intros _ y (_ & _ & H1 & H2). cbn in H1. rewrite Ei in H1. injection H1 as H1. congruence.
  - destruct (backtrace_loop p read fuel max_args max_depth ip' w (depth + 1)) as [[fs t']|e] eqn:El; [|discriminate]. cbn [bind fst snd]. intros [= <- <-].
    assert (next_frame p read (ip, fp) (ip', w)) as Hnx by (repeat split; assumption).
    destruct (Z_lt_le_dec (depth + 1) max_depth) as [Hlt|Hge].
    + destruct (IH _ _ _ _ _ Hlt El) as (l & z & H1 & H2 & H3 & H4 & H5). exists ((ip, fp) :: l), z. split; [econstructor; eauto|]. split; [constructor; [split; [reflexivity|exact Ea]|exact H2]|].
      rewrite zlen_cons. split; [lia|]. split; [intros Ht; destruct (H4 Ht) as [H6 H7]; split; [lia|exact H7]|exact H5].
    + assert (fs = [] /\ t' = true) as [-> ->].
      { destruct fuel as [|fuel]; cbn [backtrace_loop] in El; [discriminate|]. replace (max_depth <=? depth + 1) with true in El by blia. injection El as <- <-. auto. }
      exists [(ip, fp)], (ip, fp). split; [constructor|]. split; [constructor; [split; [reflexivity|exact Ea]|constructor]|]. rewrite zlen_cons, zlen_nil. split; [lia|]. split; [|discriminate].
      intros _. split; [lia|]. now exists (ip', w).
Qed.
Lemma backtrace_frames p read ip fp max_args max_depth frames t : 0 < max_depth -> getBacktrace p read (Ok ip) (Ok fp) max_args max_depth = Ok (frames, t) ->
  exists l z, chain p read (ip, fp) l z /\ Forall2 (frame_of p read max_args) l frames /\ zlen l <= max_depth /\
    (t = true -> zlen l = max_depth /\ exists y, next_frame p read z y) /\ (t = false -> forall y, ~ next_frame p read z y).
Proof. intros H1 H2. unfold getBacktrace in H2. cbn [bind] in H2. apply loop_frames in H2; [|exact H1]. now rewrite Z.sub_0_r in H2. Qed.
Lemma backtrace_bounds p read ip fp max_args max_depth frames t : getBacktrace p read ip fp max_args max_depth = Ok (frames, t) ->
  zlen frames <= Z.max 0 max_depth /\ Forall (fun f => zlen (fr_arguments f) <= Z.max 0 max_args) frames.
Proof.
  intros H. destruct ip as [ip|e]; [|discriminate]. destruct fp as [fp|e]; [|discriminate]. destruct (Z_lt_le_dec 0 max_depth) as [Hd|Hd].
  - apply backtrace_frames in H as (l & z & _ & H1 & H2 & _); [|exact Hd]. split.
    + assert (zlen l = zlen frames) as <-; [|lia]. clear H2. unfold zlen. induction H1; cbn [List.length]; lia.
    + clear H2. induction H1 as [|x f l fs [_ (Hl & _)] _ IH]; [constructor|]. constructor; [|exact IH].
      assert (argument_count p read max_args (snd x) <= Z.max 0 max_args).
      { unfold argument_count. destruct (read (snd x)) as [w|]; [|lia]. destruct (_ || _); lia. }
      unfold zlen. lia.
  - unfold getBacktrace in H. cbn [bind backtrace_loop] in H. replace (max_depth <=? 0) with true in H by blia. injection H as <- <-. rewrite zlen_nil. split; [lia|constructor].
Qed.
Lemma backtrace_nothing p read ip fp max_args max_depth : max_depth <= 0 -> getBacktrace p read (Ok ip) (Ok fp) max_args max_depth = Ok ([], true).
Proof. intros H. unfold getBacktrace. cbn [bind backtrace_loop]. now replace (max_depth <=? 0) with true by blia. Qed.
Lemma arguments_errors p read n : forall a e, read_arguments p read n a = Err e -> exists b, read b = Err e /\ is_ptrace_error e = false.
Proof.
  induction n as [|n IH]; intros a e; cbn [read_arguments]; [discriminate|]. destruct (read (a + word_size p)) as [w|e'] eqn:E.
  - destruct (read_arguments p read n (a + word_size p)) as [rest|e'] eqn:Er; [discriminate|]. cbn [bind]. intros [= <-]. eauto.
  - destruct (is_ptrace_error e') eqn:Ee; [discriminate|]. intros [= <-]. eauto.
Qed.
(** An exception that leaves comes from a read *)
Lemma loop_errors p read max_args max_depth : forall fuel ip fp depth e, (0 < fuel)%nat -> max_depth - depth < Z.of_nat fuel ->
  backtrace_loop p read fuel max_args max_depth ip fp depth = Err e -> exists a, read a = Err e.
Proof.
  induction fuel as [|fuel IH]; intros ip fp depth e H0 Hf; cbn [backtrace_loop]; [lia|].
  destruct (max_depth <=? depth) eqn:Ed; zb; [discriminate|]. destruct (read fp) as [w|e'] eqn:Er; cbn [bind].
    + unfold getBacktraceFrame. destruct (read_arguments p read _ _) as [args|e'] eqn:Ea; cbn [bind].
      2:{ intros [= <-]. apply arguments_errors in Ea as (b & Hb & _). eauto. }
      destruct (w =? 0); [discriminate|]. destruct (read (fp + word_size p)) as [ip'|e'] eqn:Ei; cbn [bind]; [|intros [= <-]; eauto].
      destruct (ip' =? max_uint p); [discriminate|]. destruct (backtrace_loop p read fuel max_args max_depth ip' w (depth + 1)) as [r|e'] eqn:El; [discriminate|]. cbn [bind]. intros [= <-].
      eapply IH; [| |exact El]; lia.
    + destruct (is_ptrace_error e') eqn:Ee; cbn [bind]; [|intros [= <-]; eauto].
      unfold getBacktraceFrame. destruct (read_arguments p read _ _) as [args|e''] eqn:Ea; cbn [bind]; [discriminate|]. intros [= <-]. apply arguments_errors in Ea as (b & Hb & _). eauto.
Qed.
Lemma loop_zero p read max_args max_depth ip fp depth e : max_depth <= depth -> backtrace_loop p read 1 max_args max_depth ip fp depth = Err e -> False.
Proof. intros H. cbn [backtrace_loop]. replace (max_depth <=? depth) with true by blia. discriminate. Qed.
Lemma backtrace_errors p read ip fp max_args max_depth e : getBacktrace p read ip fp max_args max_depth = Err e ->
  ip = Err e \/ fp = Err e \/ exists a, read a = Err e.
Proof.
  unfold getBacktrace. destruct ip as [ip|e1]; cbn [bind]; [|intros [= <-]; auto]. destruct fp as [fp|e1]; cbn [bind]; [|intros [= <-]; auto].
  intros H. right. right. destruct (Z_le_gt_dec max_depth 0) as [Hd|Hd].
  - exfalso. replace (Z.to_nat max_depth) with O in H by lia. eapply loop_zero; [exact Hd|exact H].
  - eapply loop_errors; [| |exact H]; lia.
Qed.
Lemma return_address : exists read ip fp, getBacktrace linux_x86_64 read (Ok ip) (Ok fp) 6 20 = Err (EPtraceError (Some 5)) /\ read fp = Ok (fp + 32).
Proof. exists (fun a => if a =? 4088 then Ok 4120 else Err (EPtraceError (Some 5))), 1, 4088. split; reflexivity. Qed.

(** ** Stack *)
Lemma stack_spec p read sp l lines : stack_lines p read sp l = Ok lines ->
  lines = flat_map (fun i => match read (sp + i * word_size p) with Ok v => [T "STACK" ++ signed3 (i * word_size p) ++ T ": " ++ formatWordHex p v] | Err _ => [] end) l /\
  Forall (fun i => match read (sp + i * word_size p) with Ok _ => True | Err e => is_ptrace_error e = true end) l.
Proof.
  revert lines. induction l as [|i l IH]; intros lines; cbn [stack_lines flat_map]; [intros [= <-]; split; [reflexivity|constructor]|].
  destruct (read (sp + i * word_size p)) as [v|e] eqn:E.
  - cbn [bind]. destruct (stack_lines p read sp l) as [ls|e] eqn:El; [|discriminate]. cbn [bind]. intros [= <-]. destruct (IH ls eq_refl) as [-> H]. split; [reflexivity|]. constructor; [now rewrite E|exact H].
  - destruct (is_ptrace_error e) eqn:Ee; [|discriminate]. cbn [bind]. destruct (stack_lines p read sp l) as [ls|e'] eqn:El; [|discriminate]. cbn [bind]. intros [= <-]. destruct (IH ls eq_refl) as [-> H].
    split; [reflexivity|]. constructor; [now rewrite E|exact H].
Qed.
Lemma stack_dump p read sp lines : dumpStack_ p read sp = Ok lines ->
  let shown := flat_map (fun i => match read (sp + i * word_size p) with Ok v => [T "STACK" ++ signed3 (i * word_size p) ++ T ": " ++ formatWordHex p v] | Err _ => [] end) [-5; -4; -3; -2; -1; 0; 1; 2; 3; 4; 5] in
  (shown <> [] /\ lines = shown) \/ (shown = [] /\ lines = [T "ERROR: unable to read the stack (SP=" ++ formatAddress p sp ++ T ")"]).
Proof.
  cbv zeta. unfold dumpStack_. change (map (fun i => i - 5) (zrange 11)) with [-5; -4; -3; -2; -1; 0; 1; 2; 3; 4; 5].
  destruct (stack_lines p read sp _) as [ls|e] eqn:E; [|discriminate]. cbn [bind]. apply stack_spec in E as [E _]. rewrite <- E. destruct ls as [|l ls]; intros [= <-]; [right; auto|left; split; [discriminate|reflexivity]].
Qed.

(** ** C60 *)
Lemma reads_app a b : reads_of (a ++ b) = reads_of a ++ reads_of b.
Proof. apply flat_map_app. Qed.
Lemma lines_app a b : lines_of (a ++ b) = lines_of a ++ lines_of b.
Proof. apply flat_map_app. Qed.
Lemma log_all_spec l : log_all l = (map Line l, Ok tt).
Proof. induction l as [|t l IH]; [reflexivity|]. cbn [log_all lbind log]. now rewrite IH. Qed.
Lemma reads_lines l : reads_of (map Line l) = [].
Proof. induction l; [reflexivity|assumption]. Qed.
Lemma lines_lines l : lines_of (map Line l) = l.
Proof. induction l as [|t l IH]; [reflexivity|]. cbn. unfold lines_of in IH. now rewrite IH. Qed.
Definition window (start : Z) (stop : option Z) (otherwise : Z) : Z := match stop with Some s => Z.min (Z.max start s) (start + 1023) - start + 1 | None => otherwise end.
Lemma bp_reads p D read bps : forall n ip stop address, Forall (fun an => snd an = ds_max D) (reads_of (fst (bp_lines p (Some D) read bps D n ip stop address))) /\
  (List.length (reads_of (fst (bp_lines p (Some D) read bps D n ip stop address))) <= n)%nat.
Proof.
  induction n as [|n IH]; intros ip stop address; cbn [bp_lines]; [split; [constructor|cbn; lia]|].
  assert (forall (m : L instruction) k, (List.length (reads_of (fst m)) <= 1)%nat -> Forall (fun an => snd an = ds_max D) (reads_of (fst m)) ->
    (forall i, Forall (fun an => snd an = ds_max D) (reads_of (fst (k i))) /\ (List.length (reads_of (fst (k i))) <= n)%nat) ->
    Forall (fun an => snd an = ds_max D) (reads_of (fst (lbind (B := unit) m k))) /\ (List.length (reads_of (fst (lbind m k))) <= S n)%nat) as Hb.
  { intros [lg [i|e]] k H1 H2 H3; cbn [lbind fst] in *; [|split; [exact H2|lia]]. specialize (H3 i). destruct (k i) as [lg' r]. cbn [fst] in *. rewrite reads_app. split; [apply Forall_app; tauto|rewrite app_length; lia]. }
  apply Hb.
  - destruct (dget Z.eqb address bps); cbn; [lia|]. unfold lbind, readBytes, lres. cbn. destruct (read address (ds_max D)); cbn; lia.
  - destruct (dget Z.eqb address bps); cbn; [constructor|]. unfold lbind, readBytes, lres. cbn. destruct (read address (ds_max D)); cbn; repeat constructor.
  - intros i. cbn [lbind log]. destruct (match stop with Some s => s <=? address + in_size i | None => false end).
    + cbn. split; [constructor|lia].
    + specialize (IH ip stop (address + in_size i)). destruct (bp_lines p (Some D) read bps D n ip stop (address + in_size i)) as [lg r]. cbn [fst] in *. exact IH.
Qed.
(** The memory read by a dump: one window, or instructions at most ten *)
Lemma dump_reads p dis read bps start stop ip manage_bp :
  let l := reads_of (fst (dumpCode_ p dis read bps start stop ip manage_bp)) in
  match dis with
  | None => l = [(start, window start stop 32)]
  | Some D => if manage_bp then (List.length l <= 10)%nat /\ Forall (fun an => snd an = ds_max D) l
              else l = [(start, window start stop (10 * ds_max D))]
  end.
Proof.
  cbv zeta. unfold dumpCode_. destruct dis as [D|].
  - destruct manage_bp.
    + cbn [lbind log]. pose proof (bp_reads p D read bps 10 ip (match stop with Some s => Some (Z.min (Z.max start s) (start + MAX_CODE_SIZE - 1)) | None => None end) start) as [H1 H2].
      destruct (bp_lines p (Some D) read bps D 10 ip _ start) as [lg r]. cbn [fst] in *. rewrite reads_app. cbn. auto.
    + unfold disassemble. cbn [lbind log lres]. destruct stop as [s|]; unfold window, MAX_CODE_SIZE, DEFAULT_NB_INSTR.
      * replace (Z.max start (Z.min (Z.max start s) (start + 1024 - 1)) - start + 1) with (Z.min (Z.max start s) (start + 1023) - start + 1) by lia.
        unfold readBytes. cbn [lbind]. destruct (read start _) as [code|e]; [|reflexivity]. cbn [lbind lret]. rewrite log_all_spec. cbn [fst]. rewrite !reads_app, reads_lines. reflexivity.
      * unfold readBytes. cbn [lbind]. destruct (read start _) as [code|e]; [|reflexivity]. cbn [lbind lret]. rewrite log_all_spec. cbn [fst]. rewrite !reads_app, reads_lines. reflexivity.
  - cbn [lbind]. unfold readBytes, window, MAX_CODE_SIZE, MIN_CODE_SIZE. destruct stop as [s|].
    + replace (start + 1024 - 1) with (start + 1023) by lia. cbn [lbind]. destruct (read start _); reflexivity.
    + cbn [lbind]. destruct (read start 32); reflexivity.
Qed.
Lemma window_bounds start stop n : 1 <= window start (Some stop) n <= 1024 /\ (start <= stop -> window start (Some stop) n <= stop - start + 1).
Proof. unfold window. lia. Qed.
Lemma dump_code_reads p dis read bps ip start stop manage_bp : (forall D, dis = Some D -> 0 <= ds_max D <= 100) ->
  Forall (fun an => snd an <= 1024) (reads_of (fst (dumpCode p dis read bps ip start stop manage_bp))).
Proof.
  intros Hmax. assert (forall s i, Forall (fun an => snd an <= 1024) (reads_of (fst (dumpCode_ p dis read bps s stop i manage_bp)))) as H.
  { intros s i. pose proof (dump_reads p dis read bps s stop i manage_bp) as H. cbv zeta in H. destruct dis as [D|].
    - specialize (Hmax D eq_refl). destruct manage_bp.
      + destruct H as [_ H]. eapply Forall_impl; [|exact H]. cbn. intros an ->. lia.
      + rewrite H. constructor; [|constructor]. cbn [snd]. destruct stop as [t|]; [apply window_bounds|unfold window; lia].
    - rewrite H. constructor; [|constructor]. cbn [snd]. destruct stop as [t|]; [apply window_bounds|unfold window; lia]. }
  assert (forall s i t, Forall (fun an => snd an <= 1024) (reads_of (fst (match dumpCode_ p dis read bps s stop i manage_bp with
          | (l, Err e) => if is_ptrace_error e then (l ++ [Line t], Ok tt) else (l, Err e) | r => r end)))) as H2.
  { intros s i t. specialize (H s i). destruct (dumpCode_ p dis read bps s stop i manage_bp) as [l [u|e]]; [exact H|]. destruct (is_ptrace_error e); [|exact H]. cbn [fst] in *. rewrite reads_app. cbn. now rewrite app_nil_r. }
  unfold dumpCode. destruct ip as [ip|e]; [destruct start; apply H2|]. destruct start as [s|]; destruct (is_ptrace_error e); try constructor. apply H2.
Qed.
(** A dump reports PtraceErrors instead of raising them *)
Lemma dump_code_errors p dis read bps ip start stop manage_bp e : snd (dumpCode p dis read bps ip start stop manage_bp) = Err e -> is_ptrace_error e = false.
Proof.
  assert (forall s i t, snd (match dumpCode_ p dis read bps s stop i manage_bp with
          | (l, Err e) => if is_ptrace_error e then (l ++ [Line t], Ok tt) else (l, Err e) | r => r end) = Err e -> is_ptrace_error e = false) as H.
  { intros s i t. destruct (dumpCode_ p dis read bps s stop i manage_bp) as [l [u|e']]; [discriminate|]. destruct (is_ptrace_error e') eqn:E; [discriminate|]. cbn. now intros [= <-]. }
  unfold dumpCode. destruct ip as [ip|e']; [destruct start; apply H|]. destruct start as [s|]; destruct (is_ptrace_error e') eqn:E; try discriminate; try apply H; cbn; now intros [= <-].
Qed.
Lemma disassemble_spec D read ip start stop nb l : snd (disassemble (Some D) read ip start stop nb) = Ok l ->
  exists s code, match start with Some s' => s' = s | None => ip = Ok s end /\
    read s (match stop with Some t => Z.max s t - s + 1 | None => (match nb with Some n => n | None => 10 end) * ds_max D end) = Ok code /\
    exists rest, ds_decode D s code = l ++ rest /\
      match nb with
      | Some n => 1 <= n -> zlen l <= n /\ (zlen l < n -> rest = [])
      | None => match stop with Some _ => rest = [] | None => zlen l <= 10 /\ (zlen l < 10 -> rest = []) end
      end.
Proof.
  assert (forall n (all : list instruction), 1 <= n -> exists rest, all = firstn (Z.to_nat (Z.max 1 n)) all ++ rest /\ zlen (firstn (Z.to_nat (Z.max 1 n)) all) <= n /\ (zlen (firstn (Z.to_nat (Z.max 1 n)) all) < n -> rest = [])) as Hf.
  { intros n all Hn. exists (skipn (Z.to_nat (Z.max 1 n)) all). split; [symmetry; apply firstn_skipn|]. unfold zlen. rewrite firstn_length. split; [lia|]. intros H. apply skipn_all2. lia. }
  unfold disassemble. destruct (match start with Some s => Ok s | None => ip end) as [s|e] eqn:Es; [|discriminate]. cbn [lbind lres].
  assert (match start with Some s' => s' = s | None => ip = Ok s end) as Hs by (destruct start; [now injection Es|exact Es]).
  destruct stop as [t|]; cbn [lbind readBytes].
  - unfold readBytes. cbn [lbind]. destruct (read s (Z.max s t - s + 1)) as [code|e] eqn:Er; [|discriminate]. cbn [lbind lret snd]. intros [= <-]. exists s, code. split; [exact Hs|]. split; [exact Er|].
    unfold disassemble_code. destruct nb as [n|].
    + destruct (n =? 0) eqn:E0; zb; [exists []; split; [now rewrite app_nil_r|lia]|]. destruct (Z_le_gt_dec 1 n) as [Hn|Hn].
      * destruct (Hf n (ds_decode D s code) Hn) as (rest & H1 & H2). exists rest. split; [exact H1|intros _; exact H2].
      * exists (skipn (Z.to_nat (Z.max 1 n)) (ds_decode D s code)). split; [symmetry; apply firstn_skipn|lia].
    + exists []. split; [now rewrite app_nil_r|reflexivity].
  - unfold readBytes, DEFAULT_NB_INSTR. cbn [lbind]. set (n := match nb with Some n => n | None => 10 end). destruct (read s (n * ds_max D)) as [code|e] eqn:Er; [|discriminate]. cbn [lbind lret snd]. intros [= <-].
    exists s, code. split; [exact Hs|]. split; [exact Er|]. unfold disassemble_code. destruct (n =? 0) eqn:E0; zb.
    + exists []. split; [now rewrite app_nil_r|]. destruct nb; [subst n; lia|discriminate E0].
    + destruct (Z_le_gt_dec 1 n) as [Hn|Hn].
      * destruct (Hf n (ds_decode D s code) Hn) as (rest & H1 & H2 & H3). exists rest. split; [exact H1|]. destruct nb as [n'|]; subst n; auto.
      * exists (skipn (Z.to_nat (Z.max 1 n)) (ds_decode D s code)). split; [symmetry; apply firstn_skipn|]. destruct nb; subst n; lia.
Qed.
Lemma one_spec D read ip address : snd (disassembleOne (Some D) read ip address) =
  do a <- match address with Some a => Ok a | None => ip end;
  do code <- read a (ds_max D);
  match ds_decode D a code with i :: _ => Ok i | [] => Err (EPtraceError None) end.
Proof.
  unfold disassembleOne. destruct (match address with Some a => Ok a | None => ip end) as [a|e]; [|reflexivity]. cbn [lbind lres bind]. unfold readBytes. cbn [lbind].
  destruct (read a (ds_max D)) as [code|e]; [|reflexivity]. reflexivity.
Qed.
Lemma no_disassembler read ip start stop nb : snd (disassemble None read ip start stop nb) = Err ENotImplementedError /\ snd (disassembleOne None read ip start) = Err ENotImplementedError.
Proof. split; reflexivity. Qed.
(** The lines of a plain dump *)
Lemma dump_lines p D read bps start stop ip l : snd (disassemble (Some D) read (Err EUndefined) (Some start) (match stop with Some s => Some (Z.min (Z.max start s) (start + 1023)) | None => None end) None) = Ok l ->
  lines_of (fst (dumpCode_ p (Some D) read bps start stop ip false)) = T "CODE:" :: map (instr_line p ip) l /\ snd (dumpCode_ p (Some D) read bps start stop ip false) = Ok tt.
Proof.
  unfold dumpCode_, MAX_CODE_SIZE. replace (start + 1024 - 1) with (start + 1023) by lia. cbn [lbind log].
  set (m := disassemble _ _ _ _ _ _). assert (lines_of (fst m) = []) as Hm.
  { unfold m, disassemble. cbn [lbind lres]. destruct stop; unfold readBytes; cbn [lbind]; destruct (read start _); reflexivity. }
  destruct m as [lg [is|e]]; cbn [fst snd] in *; [|discriminate]. intros [= <-]. cbn [lbind]. rewrite log_all_spec. cbn [fst snd]. rewrite !lines_app, Hm, lines_lines. split; reflexivity.
Qed.
(** A breakpoint hides the operands: only the replaced bytes are decoded. *)
Lemma bp_decode p D read bps n ip stop address bytes i rest : dget Z.eqb address bps = Some bytes -> ds_decode D address bytes = i :: rest ->
  exists r, lines_of (fst (bp_lines p (Some D) read bps D (S n) ip stop address)) = (instr_line p ip i ++ T "     * BREAKPOINT *") :: r.
Proof.
  intros H1 H2. cbn [bp_lines]. rewrite H1. unfold disassembleOne_code, disassemble_code. rewrite H2. cbn [lbind lres log].
  destruct (match stop with Some s => s <=? address + in_size i | None => false end); [eexists; reflexivity|].
  destruct (bp_lines p (Some D) read bps D n ip stop (address + in_size i)) as [lg r]. cbn [fst app]. eexists. reflexivity.
Qed.
Definition bp_line (p : platform) (ip : option Z) (x : instruction * bool) : text := instr_line p ip (fst x) ++ (if snd x then T "     * BREAKPOINT *" else []).
Lemma bp_walk p D read bps : forall n ip stop address, snd (bp_lines p (Some D) read bps D n ip stop address) = Ok tt ->
  exists l, walk D read bps stop n address l /\ lines_of (fst (bp_lines p (Some D) read bps D n ip stop address)) = map (bp_line p ip) l.
Proof.
  induction n as [|n IH]; intros ip stop address; cbn [bp_lines]; [intros _; exists []; split; [constructor|reflexivity]|].
  set (m := match dget Z.eqb address bps with Some bytes => _ | None => _ end). intros H.
  assert (exists code i rest, (dget Z.eqb address bps = Some code \/ dget Z.eqb address bps = None /\ read address (ds_max D) = Ok code) /\ ds_decode D address code = i :: rest /\ snd m = Ok i /\ lines_of (fst m) = []) as (code & i & rest & H1 & H2 & H3 & H4).
  { destruct (dget Z.eqb address bps) as [bytes|] eqn:Eb.
    - subst m. unfold disassembleOne_code, disassemble_code in *. destruct (ds_decode D address bytes) as [|i rest] eqn:E; [discriminate H|]. exists bytes, i, rest. auto.
    - subst m. unfold disassembleOne in *. cbn [lbind lres] in *. unfold readBytes in *. cbn [lbind] in *. destruct (read address (ds_max D)) as [code|e] eqn:Er; [|discriminate H].
      unfold disassembleOne_code, disassemble_code in *. cbn [lbind lres] in *. destruct (ds_decode D address code) as [|i rest] eqn:E; [discriminate H|]. exists code, i, rest. auto 6. }
  set (bp := match dget Z.eqb address bps with Some _ => true | None => false end).
  assert (dget Z.eqb address bps = Some code /\ bp = true \/ dget Z.eqb address bps = None /\ read address (ds_max D) = Ok code /\ bp = false) as H5.
  { subst bp. destruct H1 as [->|[-> H1]]; auto. }
  assert (match dget Z.eqb address bps with Some _ => T "     * BREAKPOINT *" | None => [] end = (if bp then T "     * BREAKPOINT *" else [])) as H6 by (subst bp; destruct (dget Z.eqb address bps); reflexivity).
  rewrite H6 in *. clearbody m bp. destruct m as [lg [j|e]]; cbn [fst snd] in *; [|discriminate H3]. injection H3 as ->. cbn [lbind log] in *.
  destruct (match stop with Some s => s <=? address + in_size i | None => false end) eqn:Es.
  - exists [(i, bp)]. split; [|unfold lret; rewrite ?app_nil_r; cbn [fst map]; rewrite lines_app, H4; reflexivity]. eapply walk_last; eauto. destruct stop as [s|]; [|discriminate]. exists s. split; [reflexivity|]. zb. exact Es.
  - specialize (IH ip stop (address + in_size i)). destruct (bp_lines p (Some D) read bps D n ip stop (address + in_size i)) as [lg' r] eqn:El. cbn [fst snd] in *. destruct (IH H) as (l & Hl & Hl').
    exists ((i, bp) :: l). split; [|cbn [map fst]; rewrite !lines_app, H4; cbn [app]; rewrite <- Hl'; reflexivity]. eapply walk_next; eauto. intros s ->. zb. lia.
Qed.
Lemma walk_length D read bps stop n a l : walk D read bps stop n a l -> (List.length l <= n)%nat.
Proof. induction 1; cbn; lia. Qed.
Lemma dump_bp_lines p D read bps start stop ip : snd (dumpCode_ p (Some D) read bps start stop ip true) = Ok tt ->
  exists l, walk D read bps (match stop with Some s => Some (Z.min (Z.max start s) (start + 1023)) | None => None end) 10 start l /\ (List.length l <= 10)%nat /\
    lines_of (fst (dumpCode_ p (Some D) read bps start stop ip true)) = T "CODE:" :: map (bp_line p ip) l.
Proof.
  unfold dumpCode_, MAX_CODE_SIZE. replace (start + 1024 - 1) with (start + 1023) by lia. cbn [lbind log]. set (stop' := match stop with Some s => Some _ | None => None end).
  pose proof (bp_walk p D read bps 10 ip stop' start) as H. destruct (bp_lines p (Some D) read bps D 10 ip stop' start) as [lg r]. cbn [fst snd] in *. intros Hr. destruct (H Hr) as (l & H1 & H2).
  exists l. split; [exact H1|]. split; [eapply walk_length; eauto|]. cbn [app]. rewrite <- H2. reflexivity.
Qed.
Lemma hex_bytes_read p read start stop ip bps code : read start (window start stop 32) = Ok code ->
  dumpCode_ p None read bps start stop ip false = ([Read start (window start stop 32); Line (T "CODE: " ++ hex_bytes code)], Ok tt).
Proof.
  unfold dumpCode_, window, readBytes, MAX_CODE_SIZE, MIN_CODE_SIZE. destruct stop as [s|]; cbn [lbind]; [replace (start + 1024 - 1) with (start + 1023) by lia|]; intros ->; reflexivity.
Qed.
Lemma stack_line_errors p read sp l e : stack_lines p read sp l = Err e -> is_ptrace_error e = false /\ exists a, read a = Err e.
Proof.
  induction l as [|i l IH]; cbn [stack_lines]; [discriminate|]. destruct (read (sp + i * word_size p)) as [v|e'] eqn:E.
  - cbn [bind]. destruct (stack_lines p read sp l) as [ls|e'] eqn:El; [discriminate|]. cbn [bind]. intros [= <-]. apply IH. reflexivity.
  - destruct (is_ptrace_error e') eqn:Ee; [|cbn [bind]; intros [= <-]; eauto]. cbn [bind]. destruct (stack_lines p read sp l) as [ls|e''] eqn:El; [discriminate|]. cbn [bind]. intros [= <-]. apply IH. reflexivity.
Qed.
Lemma stack_errors p read maps sp e : dumpStack p read maps sp = Err e -> maps = Err e \/ sp = Err e \/ (is_ptrace_error e = false /\ exists a, read a = Err e).
Proof.
  unfold dumpStack. destruct maps as [maps|e']; cbn [bind]; [|intros [= <-]; auto]. destruct sp as [sp|e']; cbn [bind]; [|intros [= <-]; auto].
  unfold dumpStack_. destruct (stack_lines p read sp _) as [ls|e'] eqn:E; cbn [bind]; [discriminate|]. intros [= <-]. right. right. eapply stack_line_errors; eauto.
Qed.
Lemma stack_mapping p read maps sp lines : dumpStack_ p read sp = Ok lines ->
  dumpStack p read (Ok maps) (Ok sp) = Ok (match findStack maps with Some m => [T "STACK: " ++ map_str p m] | None => [] end ++ lines).
Proof. intros H. unfold dumpStack. cbn [bind]. rewrite H. reflexivity. Qed.
(** ** The texts *)
Lemma join_cons {A} (sep : text) (f : A -> text) a l : join sep (map f (a :: l)) = f a ++ List.concat (map (fun x => sep ++ f x) l).
Proof.
  revert a. induction l as [|b l IH]; intros a; [cbn [map join List.concat]; now rewrite app_nil_r|].
  change (join sep (map f (a :: b :: l))) with (f a ++ sep ++ join sep (map f (b :: l))). rewrite IH. cbn [map List.concat]. now rewrite <- !app_assoc.
Qed.
Lemma frame_text p ip a args : frame_str p (Frame ip []) = T "IP=" ++ formatAddress p ip ++ T ": ??? ()" /\
  frame_str p (Frame ip (a :: args)) = T "IP=" ++ formatAddress p ip ++ T ": ??? (" ++ formatWordHex p a ++ List.concat (map (fun x => T ", " ++ formatWordHex p x) args) ++ T ")".
Proof. split; [reflexivity|]. unfold frame_str. cbn [fr_ip fr_arguments]. rewrite join_cons. now rewrite <- app_assoc. Qed.
Lemma caught e : is_ptrace_error e = true <-> (exists errno, e = EPtraceError errno) \/ e = EProcessError \/ e = EDebuggerError.
Proof.
  split.
  - destruct e; try discriminate; intros _; eauto.
  - intros [[x ->]|[->| ->]]; reflexivity.
Qed.
Lemma signed_text n : exists pad, signed3 n = repeat " "%char pad ++ (if n <? 0 then T "-" else T "+") ++ digits 10 (Z.abs n) /\
  List.length (signed3 n) = Nat.max 3 (1 + List.length (digits 10 (Z.abs n))).
Proof.
  unfold signed3. eexists. split; [unfold padl; reflexivity|]. rewrite padl_length. destruct (n <? 0); reflexivity.
Qed.
Lemma hex_text code : code <> [] -> map (read_uint 16) (split_char " "%char (hex_bytes code)) = map (fun b => Some (b2z b)) code /\
  Forall (fun t => List.length t = 2%nat) (split_char " "%char (hex_bytes code)).
Proof.
  intros Hc. unfold hex_bytes. change (T " ") with [" "%char]. rewrite split_join.
  - split.
    + rewrite map_map. apply map_ext. intros b. pose proof (b2z_range b). apply read_uint_padl; [lia|apply digits_nonempty|]. apply digits_read; lia.
    + apply Forall_map, Forall_forall. intros b _. rewrite padl_length. pose proof (b2z_range b). pose proof (digits_length 16 (b2z b) 2 ltac:(lia) ltac:(lia) ltac:(lia) ltac:(change (16 ^ 2) with 256; lia)).
      unfold zlen in H0. lia.
  - destruct code; [easy|discriminate].
  - intros x Hx. apply in_map_iff in Hx as (b & <- & _). unfold padl. intros Hi. apply in_app_or in Hi as [Hi|Hi]; [apply repeat_spec in Hi; discriminate Hi|].
    pose proof (b2z_range b). pose proof (digits_Forall (fun c => c <> " "%char) 16 (b2z b) ltac:(lia)) as Hf.
    assert (forall d, 0 <= d < 16 -> digit_char d <> " "%char) as Hd.
    { intros d Hd. assert (d = 0 \/ d = 1 \/ d = 2 \/ d = 3 \/ d = 4 \/ d = 5 \/ d = 6 \/ d = 7 \/ d = 8 \/ d = 9 \/ d = 10 \/ d = 11 \/ d = 12 \/ d = 13 \/ d = 14 \/ d = 15) as He by lia.
      repeat (destruct He as [->|He]; [discriminate|]). subst. discriminate. }
    specialize (Hf Hd ltac:(lia)). rewrite Forall_forall in Hf. exact (Hf _ Hi eq_refl).
Qed.
Lemma line_text p ip i : instr_line p ip i = formatAddress p (in_address i) ++ T "| " ++ in_text i ++ T " (" ++ in_hexa i ++ T ")" ++ (if match ip with Some a => in_address i =? a | None => false end then T " <==" else []).
Proof. unfold instr_line. destruct ip; reflexivity. Qed.
Lemma dump_messages p dis read bps ip start stop manage_bp e : is_ptrace_error e = true ->
  (ip = Err e -> start = None -> dumpCode p dis read bps ip start stop manage_bp = ([Line (T "Unable to read instruction pointer: ")], Ok tt)) /\
  (forall s l, snd (dumpCode_ p dis read bps s stop (match ip with Ok i => Some i | Err _ => None end) manage_bp) = Err e ->
     fst (dumpCode_ p dis read bps s stop (match ip with Ok i => Some i | Err _ => None end) manage_bp) = l ->
     start = Some s \/ (start = None /\ ip = Ok s) -> (forall e', ip = Err e' -> is_ptrace_error e' = true) ->
     dumpCode p dis read bps ip start stop manage_bp = (l ++ [Line (T "Unable to dump code at " ++ formatAddress p s ++ T ": ")], Ok tt)).
Proof.
  intros He. split.
  - intros -> ->. unfold dumpCode. rewrite He. reflexivity.
  - intros s l H1 H2 H3 H4. unfold dumpCode. destruct ip as [ip|e'].
    + assert (match start with Some s => s | None => ip end = s) as -> by (destruct H3 as [->|[-> [= <-]]]; reflexivity).
      destruct (dumpCode_ _ _ _ _ _ _ _ _) as [l' r]. cbn [fst snd] in *. subst. now rewrite He.
    + destruct H3 as [->|[_ H3]]; [|discriminate H3]. rewrite (H4 e' eq_refl). destruct (dumpCode_ _ _ _ _ _ _ _ _) as [l' r]. cbn [fst snd] in *. subst. now rewrite He.
Qed.
