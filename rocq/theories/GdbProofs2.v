From Coq Require Import ZArith List Ascii String Bool Lia Arith.
From Verif Require Import PyBase PyFacts PyInt PyIntFacts Platform IntModel IntProofs ToolsModel SigModel DbgModel MapModel TraceModel PyEval ExprModel GdbModel GdbSpec GdbProofs.
Import ListNotations.
Open Scope Z_scope.

(** ** hexdump, the command *)
Section Command.
  Context (p : platform) (ns : namespace) (eval : text -> res pyval) (env : list (gcall * ans) -> gcall -> ans).
  Notation parse := (parse p eval env).
  Lemma parse_run st t : g_parseInteger p eval env t st = match parse st t with Ok v => (st, Ret v) | Err e => (st, Raise (XErr e)) end.
  Proof. unfold g_parseInteger, gbind, gget, GdbSpec.parse. destruct (parseInteger _ _ _ _ t); reflexivity. Qed.
  Lemma or_message_ok {A} (m : GM A) f st st1 a : m st = (st1, Ret a) -> or_message m f st = f a st1.
  Proof. intros H. unfold or_message, gbind, gtry. rewrite H. reflexivity. Qed.
  Lemma or_message_err {A} (m : GM A) f st st1 : m st = (st1, Raise (XErr EValueError)) -> or_message m f st = (st1, Ret (Some (MError EValueError))).
  Proof. intros H. unfold or_message, gbind, gtry. rewrite H. reflexivity. Qed.
  Lemma or_message_raise {A} (m : GM A) f st st1 x : m st = (st1, Raise x) -> x <> XErr EValueError -> or_message m f st = (st1, Raise x).
  Proof. intros H Hx. unfold or_message, gbind, gtry. rewrite H. destruct x as [[]|]; try reflexivity. congruence. Qed.
  Lemma width_eq cols : hexdump_width p cols = row_bytes p cols.
  Proof. unfold hexdump_width, row_bytes. destruct p as [o c be []]; reflexivity. Qed.
  Context (read : Z -> Z -> res (list byte)) (cols : Z) (st : gstate).
  Hypothesis Henv : forall h a n, env h (CReadBytes (g_process st) a n) = match read a n with Ok s => ABytes s | Err e => ARaise (XErr e) end.
  Hypothesis Hcols : env (g_hist st) CTermWidth = AInt cols.
  Hypothesis Hlen : forall a n s, read a n = Ok s -> zlen s = n.
  Hypothesis Herr : forall a n e, read a n = Err e -> is_ptrace_error e = true.
  Let st1 := push CTermWidth (AInt cols) st.
  Let width := row_bytes p cols.
  Lemma hexdump_start t : hexdump p eval env t st = (fun t => match split1 " "%char t with
    | Some (t1, t2) =>
        or_message (start <-- g_parseInteger p eval env t1; stop <-- g_parseInteger p eval env t2; if stop <=? start then graise (XErr EValueError) else gret (start, stop))
          (fun range => let '(start, stop) := range in let max_size := width * 20 in
             if max_size <? stop - start then hexdump_range p env width start (start + max_size) (Some max_size) else hexdump_range p env width start stop None)
    | None => or_message (g_parseInteger p eval env t) (fun start => hexdump_range p env width start (start + 5 * width) None)
    end) t st1.
  Proof using Hcols. unfold hexdump, ask_int, gbind at 1 2, ask. rewrite Hcols. cbn [gret]. rewrite width_eq. reflexivity. Qed.
  Definition limit_line (n : Z) : gline := LText (T "(limit to " ++ str_int n ++ T " bytes)").
  Lemma hexdump_one t start : split1 " "%char t = None -> parse st1 t = Ok start ->
    exists st' items, hexdump p eval env t st = (st', Ret None) /\ same st st' /\ covers items start (start + 5 * width) /\
      Forall (in_memory read width (start + 5 * width)) items /\ no_gaps_touch items /\ lines_of (g_hist st') = lines_of (g_hist st) ++ map (item_line p width) items.
  Proof using Henv Hcols Hlen Herr.
    intros Ht Hp. rewrite hexdump_start. cbv beta. rewrite Ht. erewrite or_message_ok by (rewrite parse_run, Hp; reflexivity).
    assert (1 <= width) as Hw by (unfold width, row_bytes; lia).
    destruct (range_spec p env read (g_process st) width (start + 5 * width) Henv Hlen Herr Hw start None st1 eq_refl ltac:(lia)) as (st' & items & E & S & C & M & N & L).
    exists st', items. split; [exact E|]. split; [eapply same_trans; [apply same_push|exact S]|]. rewrite app_nil_r in L. auto.
  Qed.
  Lemma hexdump_two t t1 t2 start stop : split1 " "%char t = Some (t1, t2) -> parse st1 t1 = Ok start -> parse st1 t2 = Ok stop -> start < stop ->
    let stop' := Z.min stop (start + 20 * width) in
    exists st' items, hexdump p eval env t st = (st', Ret None) /\ same st st' /\ covers items start stop' /\
      Forall (in_memory read width stop') items /\ no_gaps_touch items /\
      lines_of (g_hist st') = lines_of (g_hist st) ++ map (item_line p width) items ++ (if stop' <? stop then [limit_line (20 * width)] else []).
  Proof using Henv Hcols Hlen Herr.
    intros Ht H1 H2 Hs stop'. rewrite hexdump_start. cbv beta. rewrite Ht. erewrite or_message_ok. 2:{ unfold gbind at 1. rewrite parse_run, H1. unfold gbind at 1. rewrite parse_run, H2. replace (stop <=? start) with false by blia. reflexivity. }
    cbv beta iota zeta. assert (1 <= width) as Hw by (unfold width, row_bytes; lia).
    destruct (width * 20 <? stop - start) eqn:E; zb.
    - replace stop' with (start + width * 20) by (unfold stop'; lia). replace (start + width * 20 <? stop) with true by blia. replace (20 * width) with (width * 20) by lia.
      destruct (range_spec p env read (g_process st) width (start + width * 20) Henv Hlen Herr Hw start (Some (width * 20)) st1 eq_refl ltac:(lia)) as (st' & items & E' & S & C & M & N & L).
      exists st', items. split; [exact E'|]. split; [eapply same_trans; [apply same_push|exact S]|]. auto.
    - replace stop' with stop by (unfold stop'; lia). replace (stop <? stop) with false by blia.
      destruct (range_spec p env read (g_process st) width stop Henv Hlen Herr Hw start None st1 eq_refl ltac:(lia)) as (st' & items & E' & S & C & M & N & L).
      exists st', items. split; [exact E'|]. split; [eapply same_trans; [apply same_push|exact S]|]. auto.
  Qed.
  Lemma hexdump_empty t t1 t2 start stop : split1 " "%char t = Some (t1, t2) -> parse st1 t1 = Ok start -> parse st1 t2 = Ok stop -> stop <= start ->
    hexdump p eval env t st = (st1, Ret (Some (MError EValueError))).
  Proof using Hcols.
    intros Ht H1 H2 Hs. rewrite hexdump_start. cbv beta. rewrite Ht. apply or_message_err. unfold gbind at 1. rewrite parse_run, H1. unfold gbind at 1. rewrite parse_run, H2. replace (stop <=? start) with true by blia. reflexivity.
  Qed.
End Command.
Lemma pad_length n t : zlen t <= n -> zlen (pad_to n t) = n.
Proof. intros H. unfold pad_to. rewrite zlen_app. unfold zlen at 2. rewrite repeat_length. lia. Qed.
Lemma hex_join_length s : zlen (join (T " ") (map hex_byte s)) = Z.max 0 (3 * zlen s - 1).
Proof.
  induction s as [|c s IH]; [reflexivity|]. cbn [map]. destruct s as [|d s]; [reflexivity|]. cbn [map join] in *. rewrite !zlen_app. rewrite IH. rewrite !zlen_cons. pose proof (zlen_nonneg s). change (zlen (hex_byte c)) with 2. change (zlen (T " ")) with 1. lia.
Qed.
(** The rows fit into the terminal. *)
Lemma row_fits p cols a s t : 0 <= a < 2 ^ wbits p -> zlen s <= row_bytes p cols -> item_line p (row_bytes p cols) (Row a s) = LText t -> zlen t <= Z.max cols ((if p_64bits p then 18 else 10) + 7).
Proof.
  intros Ha Hs E. assert (t = formatAddress p a ++ T "| " ++ pad_to (3 * row_bytes p cols - 1) (join (T " ") (map hex_byte s)) ++ T "| " ++ pad_to (row_bytes p cols) (map shown_char s)) as -> by (unfold item_line in E; congruence).
  clear E. pose proof (zlen_nonneg s). rewrite !zlen_app. rewrite pad_length by (rewrite hex_join_length; unfold row_bytes in *; lia). rewrite pad_length by (unfold zlen in *; rewrite map_length; lia).
  assert (zlen (formatAddress p a) <= (if p_64bits p then 18 else 10)) as Hf.
  { unfold formatAddress. destruct (a =? 0) eqn:E; zb; cbn [negb]; [destruct (p_64bits p); vm_compute; discriminate|]. unfold formatWordHex. destruct (wbits_cases p) as [[Hb Hw]|[Hb Hw]]; rewrite Hb; rewrite Hw in Ha.
    - unfold formatUintHex64, fmt_int0. replace (a <? 0) with false by blia. rewrite zlen_app. unfold zlen at 2. rewrite padl_length. pose proof (digits_length 16 a 16 ltac:(lia) ltac:(lia) ltac:(lia) ltac:(change (16 ^ 16) with (2 ^ 64); lia)) as Hd. unfold zlen in Hd. change (zlen (T "0x")) with 2. lia.
    - unfold formatUintHex32, fmt_int0. replace (a <? 0) with false by blia. rewrite zlen_app. unfold zlen at 2. rewrite padl_length. pose proof (digits_length 16 a 8 ltac:(lia) ltac:(lia) ltac:(lia) ltac:(change (16 ^ 8) with (2 ^ 32); lia)) as Hd. unfold zlen in Hd. change (zlen (T "0x")) with 2. lia. }
  change (zlen (T "| ")) with 2. unfold row_bytes in *. destruct (p_64bits p).
  - pose proof (Z.mul_div_le (cols - 18 - 3) 4 ltac:(lia)). lia.
  - pose proof (Z.mul_div_le (cols - 10 - 3) 4 ltac:(lia)). lia.
Qed.
(** The bytes can be read from the hexadecimal column. *)
Lemma hex_byte_inj c d : hex_byte c = hex_byte d -> c = d.
Proof.
  intros H. pose proof (forall_ascii (fun c => match read_uint 16 (hex_byte c) with Some n => n =? b2z c | None => false end) ltac:(vm_compute; reflexivity)) as F.
  pose proof (F c) as Fc. pose proof (F d) as Fd. cbv beta in Fc, Fd. rewrite H in Fc. destruct (read_uint 16 (hex_byte d)) as [n|]; [|discriminate]. zb. apply b2z_inj. congruence.
Qed.
Lemma hex_column n s : split_ws (pad_to n (join (T " ") (map hex_byte s))) = map hex_byte s.
Proof.
  assert (Forall word (map hex_byte s)) as Hw.
  { apply Forall_forall. intros w Hw. apply in_map_iff in Hw as (c & <- & _). split; [discriminate|]. pose proof (forall_ascii (fun c => forallb (fun d => negb (is_space d)) (hex_byte c)) ltac:(vm_compute; reflexivity) c) as F. cbv beta in F.
    rewrite forallb_forall in F. apply Forall_forall. intros d Hd. apply negb_true_iff. auto. }
  unfold pad_to. set (tail := repeat " "%char _). assert (Forall (fun c => is_space c = true) tail) as Ht by (apply Forall_forall; intros c Hc; apply repeat_spec in Hc; subst c; reflexivity). clearbody tail.
  pose proof (split_words " "%char eq_refl (map hex_byte s) tail Hw Ht) as H. rewrite <- H at 2. generalize (map hex_byte s). intros ws.
  assert (forall ws, ws <> [] -> List.concat (map (fun w => " "%char :: w) ws) = " "%char :: join (T " ") ws) as Hj.
  { induction ws0 as [|w ws0 IH]; [congruence|]. intros _. destruct ws0 as [|w2 ws0]; [cbn [map List.concat join app]; now rewrite app_nil_r|]. cbn [map List.concat join] in *. cbn [app] in *. rewrite IH by discriminate. reflexivity. }
  destruct ws as [|w ws]; [reflexivity|]. rewrite Hj by discriminate. reflexivity.
Qed.
