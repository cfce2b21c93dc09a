(** * ExactProofs: proofs of the exact conditions. *)
From Coq Require Import ZArith List Ascii String Bool Lia.
From Verif Require Import PyBase PyFacts PyInt PyIntFacts Platform IntModel IntSpec IntProofs RegModel RegSpec RegProofs RegFinal RegexModel RegexFacts MapModel MapProofs2 HostModel HostSpec HostProofs ProcModel ProcSpec ProcProofs DecodeModel DecodeSpec DecodeProofs DecodeProofs2 ExactSpec.
Import ListNotations.
Open Scope Z_scope.

(** ** C03 *)
Lemma ntoh_big2 b0 b1 : ntoh_ushort (host_value true [b0; b1]) = Ok (big_endian_value [b1; b0]) /\ (ntoh_ushort (host_value true [b0; b1]) = Ok (big_endian_value [b0; b1]) <-> b0 = b1).
Proof.
  pose proof (ntoh_ushort_bytes b1 b0) as H. change (host_value false [b1; b0]) with (host_value true [b0; b1]) in H. split; [exact H|]. rewrite H. split; [|now intros ->].
  intros E. injection E as E. unfold big_endian_value in E. cbn [fold_left] in E. apply b2z_inj. pose proof (b2z_range b0). pose proof (b2z_range b1). lia.
Qed.
Lemma ntoh_big4 b0 b1 b2 b3 : ntoh_uint (host_value true [b0; b1; b2; b3]) = Ok (big_endian_value [b3; b2; b1; b0])
  /\ (ntoh_uint (host_value true [b0; b1; b2; b3]) = Ok (big_endian_value [b0; b1; b2; b3]) <-> b0 = b3 /\ b1 = b2).
Proof.
  pose proof (ntoh_uint_bytes b3 b2 b1 b0) as H. change (host_value false [b3; b2; b1; b0]) with (host_value true [b0; b1; b2; b3]) in H. split; [exact H|]. rewrite H. split; [|now intros [-> ->]].
  intros E. injection E as E. unfold big_endian_value in E. cbn [fold_left] in E. pose proof (b2z_range b0). pose proof (b2z_range b1). pose proof (b2z_range b2). pose proof (b2z_range b3).
  split; apply b2z_inj; lia.
Qed.

(** ** C97, C98 *)
Lemma width_all rows cols : 0 <= rows < 65536 -> 0 <= cols < 65536 -> terminalWidth (le16 rows ++ le16 cols) = Ok (if cols <? 32768 then cols else cols - 65536).
Proof. intros Hr Hc. unfold terminalWidth, terminalSize, le16. cbn [app bind fst]. rewrite le16_value by lia. reflexivity. Qed.
Lemma width_exact rows cols : 0 <= rows < 65536 -> 0 <= cols < 65536 -> (terminalWidth (le16 rows ++ le16 cols) = Ok cols <-> cols < 32768).
Proof.
  intros Hr Hc. rewrite width_all by assumption. destruct (cols <? 32768) eqn:E; [apply Z.ltb_lt in E; now split|]. apply Z.ltb_ge in E.
  split; [intros H; injection H; lia|lia].
Qed.
Lemma date_exact zone value : 0 <= value <= 2147483647 -> Z.abs (zone 0) <= 86400 -> (timestampUNIX zone value true = Ok (local_date zone value) <-> zone value = zone 0).
Proof. intros H1 H2. rewrite date_local by assumption. unfold local_date. split; [intros E; injection E; lia|now intros ->]. Qed.

(** ** C20, C21 *)
Lemma two_ind (P : text -> Prop) : P [] -> (forall a, P [a]) -> (forall a b l, P l -> P (b :: l) -> P (a :: b :: l)) -> forall l, P l.
Proof.
  intros H0 H1 H2 l. assert (P l /\ forall a, P (a :: l)) as [H _]; [|exact H]. induction l as [|b l [I J]]; [split; [exact H0|exact H1]|]. split; [apply J|]. intros a. apply H2; [exact I|apply J].
Qed.
Lemma newlines_read s : forall t, as_read s t <-> universal_newlines s = t.
Proof.
  induction s as [|c|c d l I J] using two_ind; intros t.
  - cbn [universal_newlines]. split; [intros H; now inversion H|intros <-; constructor].
  - cbn [universal_newlines]. destruct (Ascii.eqb c CR) eqn:E.
    + apply Ascii.eqb_eq in E. subst c. split; [|intros <-; apply r_cr; [discriminate|constructor]]. intros H. inversion H as [| |s' t' N R|c s' t' N R]; subst; [|congruence]. now inversion R.
    + assert (c <> CR) as N by (intros ->; discriminate). split; [|intros <-; apply r_char; [exact N|constructor]].
      intros H. inversion H as [| |s' t' N' R|c' s' t' N' R]; subst; [congruence|]. now inversion R.
  - cbn [universal_newlines] in *. destruct (Ascii.eqb c CR) eqn:E.
    + apply Ascii.eqb_eq in E. subst c. destruct (Ascii.eqb d newline) eqn:D.
      * apply Ascii.eqb_eq in D. subst d. split; [|intros <-; apply r_crlf; now apply I].
        intros H. inversion H as [|s' t' R|s' t' N R|c s' t' N R]; subst; [|exfalso; exact (N _ eq_refl)|congruence]. apply I in R. now rewrite R.
      * assert (d <> newline) as ND by (intros ->; discriminate). split; [|intros <-; apply r_cr; [congruence|now apply J]].
        intros H. inversion H as [|s' t' R|s' t' N R|c s' t' N R]; subst; [congruence| |congruence]. apply J in R. now rewrite R.
    + assert (c <> CR) as N by (intros ->; discriminate). split; [|intros <-; apply r_char; [exact N|now apply J]].
      intros H. inversion H as [|s' t' R|s' t' N' R|c' s' t' N' R]; subst; [congruence|congruence|]. apply J in R. now rewrite R.
Qed.
Lemma read_no_cr s : no_cr (universal_newlines s).
Proof.
  assert (forall t, as_read s t -> no_cr t) as H; [|now apply H, newlines_read].
  intros t R. unfold no_cr. induction R as [|s t R IH|s t N R IH|c s t N R IH]; [intros []| | |]; (intros [E|I]; [|contradiction]); [discriminate|discriminate|congruence].
Qed.
Lemma read_same s : universal_newlines s = s <-> no_cr s.
Proof. split; [intros <-; apply read_no_cr|apply universal_plain]. Qed.
Lemma read_between t c s : c <> CR -> c <> newline -> universal_newlines (t ++ c :: s) = universal_newlines t ++ c :: universal_newlines s.
Proof.
  intros N1 N2. apply newlines_read. assert (as_read t (universal_newlines t)) as H by now apply newlines_read. revert H. generalize (universal_newlines t). intros u R.
  assert (as_read s (universal_newlines s)) as S by now apply newlines_read.
  induction R as [|t u R IH|t u N R IH|d t u N R IH]; cbn [app].
  - now apply r_char.
  - now apply r_crlf.
  - apply r_cr; [|exact IH]. destruct t as [|x t]; cbn [app]; [intros r E; congruence|]. intros r E. injection E as -> E. exact (N t eq_refl).
  - now apply r_char.
Qed.
Lemma read_list args : universal_newlines (nul_terminated args) = nul_terminated (map universal_newlines args).
Proof.
  unfold nul_terminated. induction args as [|a args IH]; [reflexivity|]. cbn [map List.concat]. rewrite <- !app_assoc. cbn [app]. rewrite read_between by discriminate. now rewrite IH.
Qed.
Lemma read_nul s : ~ In NUL s -> ~ In NUL (universal_newlines s).
Proof.
  assert (forall t, as_read s t -> ~ In NUL s -> ~ In NUL t) as H; [|intros N; apply H; [now apply newlines_read|exact N]].
  intros t R. induction R as [|s t R IH|s t N R IH|c s t N R IH]; intros K; [intros []| | |]; cbn [In] in *; intros [E|I]; try discriminate; tauto.
Qed.
Lemma read_as_newlines P pid key data : read_as P pid key data -> readProcessProc P pid key = Ok (universal_newlines data).
Proof. intros [H1 H2]. unfold readProcessProc, text_of. rewrite H1. cbn [as_proc_error bind]. rewrite H2. reflexivity. Qed.
Lemma list_exact P pid key args : Forall (fun a => ~ In NUL a) args -> read_as P pid key (nul_terminated args) ->
  (exists l, readProcessProcList P pid key = Ok l /\ Forall2 as_read args l) /\ (readProcessProcList P pid key = Ok args <-> Forall no_cr args).
Proof.
  intros F R. assert (readProcessProcList P pid key = Ok (map universal_newlines args)) as E.
  { unfold readProcessProcList. rewrite (read_as_newlines _ _ _ _ R). cbn [bind]. rewrite read_list. destruct args as [|a args]; [reflexivity|].
    destruct (nul_terminated (map universal_newlines (a :: args))) as [|x l] eqn:N.
    - exfalso. unfold nul_terminated in N. cbn [map List.concat] in N. destruct (universal_newlines a); discriminate N.
    - rewrite <- N, split_nul; [rewrite rev_app_distr; cbn [rev app map]; now rewrite rev_app_distr, rev_involutive|].
      clear N x l. revert F. generalize (a :: args). clear. intros l F. induction F as [|x l X _ IH]; [constructor|]. cbn [map]. constructor; [now apply read_nul|exact IH]. }
  rewrite E. split.
  - eexists. split; [reflexivity|]. clear. induction args as [|a args IH]; [constructor|]. cbn [map]. constructor; [now apply newlines_read|exact IH].
  - clear. induction args as [|a args IH]; [split; [constructor|reflexivity]|]. cbn [map]. split.
    + intros H. injection H as H1 H2. constructor; [now apply read_same|]. apply IH. now rewrite H2.
    + intros H. inversion H as [|? ? H1 H2]; subst. apply read_same in H1. apply IH in H2. injection H2 as H2. now rewrite H1, H2.
Qed.
Lemma stat_read pid program state numbers : state <> CR -> state <> newline ->
  universal_newlines (stat_line pid program state numbers) = stat_line pid (universal_newlines program) state numbers.
Proof.
  intros S1 S2. unfold stat_line.
  assert (no_cr (str_int pid)) as H1 by (intros I; pose proof (str_int_chars pid) as F; rewrite Forall_forall in F; apply F in I; discriminate).
  assert (no_cr (List.concat (map (fun n => T " " ++ str_int n) numbers) ++ [newline])) as H2.
  { intros I. apply in_app_or in I. destruct I as [I|[I|[]]]; [apply in_concat_numbers in I as [I|I]; discriminate I|discriminate]. }
  change (str_int pid ++ T " (" ++ program ++ T ") " ++ [state] ++ ?X) with (str_int pid ++ " "%char :: "("%char :: program ++ ")"%char :: " "%char :: state :: X).
  rewrite read_between by discriminate. rewrite (universal_plain (str_int pid)) by exact H1.
  change ("("%char :: program ++ ?X) with (["("%char] ++ program ++ X). rewrite universal_app by (intros [I|[]]; discriminate).
  rewrite read_between by discriminate.
  change (" "%char :: state :: ?X) with ([" "%char; state] ++ X). rewrite universal_app by (intros [I|[I|[]]]; [discriminate|congruence]).
  rewrite (universal_plain (_ ++ [newline])) by exact H2. reflexivity.
Qed.
Lemma stat_exact P pid program state numbers : is_space state = false -> state <> ")"%char -> (19 <= List.length numbers)%nat ->
  read_as P pid (T "stat") (stat_line pid program state numbers) ->
  exists read, as_read program read /\ (read = program <-> no_cr program) /\
  readProcessStat P pid =
    Ok (PState pid read [state] (nth 0 numbers 0) (nth 1 numbers 0) (nth 2 numbers 0) (nth 3 numbers 0) (nth 4 numbers 0)
               (nth 10 numbers 0) (nth 11 numbers 0) (nth 18 numbers 0)).
Proof.
  intros Hs Hp Hl Hr. exists (universal_newlines program). split; [now apply newlines_read|]. split; [apply read_same|].
  unfold readProcessStat. rewrite (read_as_newlines _ _ _ _ Hr). cbn [bind].
  rewrite stat_read by (intros ->; discriminate). now apply state_spec.
Qed.
Lemma read_unique s : (forall t u, as_read s t -> as_read s u -> t = u) /\ (as_read s s <-> no_cr s).
Proof. split; [intros t u R S; apply newlines_read in R; apply newlines_read in S; congruence|]. rewrite newlines_read. apply read_same. Qed.
(** ** C09 *)
Lemma high_apart p : is_intel (p_cpu p) = true -> forall name main lo w, In (name, (main, lo, w)) (intel_parts p) -> lo <> 0 -> w <= lo.
Proof.
  intros Hi name main lo w Hin N. assert (forallb (fun x => let '(_, (_, lo, w)) := x in (lo =? 0) || (w <=? lo)) (intel_parts p) = true) as H.
  { destruct p as [o [] b wd]; try discriminate Hi; vm_compute; reflexivity. }
  rewrite forallb_forall in H. specialize (H _ Hin). cbn in H. apply orb_true_iff in H. destruct H as [H|H]; [apply Z.eqb_eq in H; contradiction|now apply Z.leb_le].
Qed.
Lemma code_bits old v lo w n i : 0 < w -> w <= lo -> lo + w <= n -> 0 <= i < n ->
  Z.testbit (code_value old v lo (mask_of w) mod 2 ^ n) i = (if i <? w then false else Z.testbit old i) || ((lo <=? i) && (i <? lo + w) && Z.testbit v (i - lo)).
Proof.
  intros Hw Hl Hn Hi. rewrite Z.mod_pow2_bits_low by lia. unfold code_value, mask_of.
  rewrite Z.lor_spec, Z.land_spec, Z.lnot_spec, Z.shiftl_spec, Z.land_spec by lia.
  assert (2 ^ w - 1 = Z.ones w) as -> by (rewrite Z.ones_equiv; lia).
  rewrite !Z.testbit_ones by lia.
  destruct (Z.ltb_spec i w); destruct (Z.leb_spec lo i); destruct (Z.ltb_spec i (lo + w)); destruct (Z.leb_spec 0 i); destruct (Z.leb_spec 0 (i - lo)); destruct (Z.ltb_spec (i - lo) w); try lia;
    cbn [andb orb negb]; destruct (Z.testbit old i); destruct (Z.testbit v (i - lo)); reflexivity || (rewrite Z.testbit_neg_r by lia; reflexivity) || idtac.
Qed.
Lemma set_high K p s name main lo w sz old v :
  is_intel (p_cpu p) = true -> rk_get K = None -> (forall r, rk_set K r = None) -> whole p (r_regs s) ->
  In (name, (main, lo, w)) (intel_parts p) -> lo <> 0 -> reg_holds p (r_regs s) main sz old ->
  exists s' new, setreg K p name v s = (s', Ok tt) /\ reg_holds p (r_regs s') main sz new /\
    (forall i, 0 <= i < 8 * sz -> Z.testbit new i = (if i <? w then false else Z.testbit old i) || ((lo <=? i) && (i <? lo + w) && Z.testbit v (i - lo))) /\
    snd (getreg K p name s') = Ok (Z.lor (bits old lo w) (v mod 2 ^ w)) /\
    forall n sz' x, n <> main -> reg_holds p (r_regs s) n sz' x -> reg_holds p (r_regs s') n sz' x.
Proof.
  intros Hi Hk Hs Hw Hin N Hh. pose proof (intel_readable p Hi) as Hr.
  destruct (part_sub p name main lo w Hi Hin) as (Hd & H1 & _).
  destruct (setreg_sub K p s name main lo (mask_of w) sz old v Hr Hk Hs Hw Hd Hh) as (s' & E & A & [B C]).
  pose proof (part_width p _ _ _ _ _ _ _ Hi Hin Hw Hh) as Hwid. pose proof (high_apart p Hi _ _ _ _ Hin N) as Hap.
  exists s', (code_value old v lo (mask_of w) mod 2 ^ (8 * sz)). split; [exact E|]. split; [exact A|].
  split; [intros i I; apply code_bits; lia|]. split; [|exact C].
  rewrite (getreg_part K p s' name main lo w sz _ Hi Hr Hk B Hin A). cbn [snd]. f_equal. unfold bits.
  apply Z.bits_inj'. intros i I. rewrite Z.lor_spec. destruct (Z.ltb_spec i w).
  - rewrite !Z.mod_pow2_bits_low by lia. rewrite !Z.div_pow2_bits by lia. rewrite code_bits by lia.
    replace (i + lo - lo) with i by lia.
    destruct (Z.ltb_spec (i + lo) w); [lia|]. destruct (Z.leb_spec lo (i + lo)); [|lia]. destruct (Z.ltb_spec (i + lo) (lo + w)); [|lia]. reflexivity.
  - now rewrite !Z.mod_pow2_bits_high by lia.
Qed.

(** ** C94 *)
Lemma later_offset one : sensible one -> forall n offset code k i, nth_error (instructions one n offset code) k = Some i -> offset + Z.of_nat k <= di_offset i.
Proof.
  intros Hs. induction n as [|n IH]; intros offset code k i E; [destruct code, k; discriminate|].
  destruct code as [|c code]; [destruct k; discriminate|]. cbn [instructions] in E. destruct (one offset (c :: code)) as [j|] eqn:Ej; [|destruct k; discriminate].
  destruct (Hs _ _ _ Ej) as (H1 & H2). destruct k as [|k]; cbn [nth_error] in E.
  - injection E as <-. lia.
  - apply IH in E. lia.
Qed.
Lemma kept_exact internal_decode one offset code fuel : sensible one -> decodes internal_decode one -> (List.length code < fuel)%nat ->
  (Decode_list internal_decode fuel offset code = fst (Decode internal_decode fuel offset code) <-> (List.length (all_instructions one offset code) <= 100)%nat).
Proof.
  intros Hs Hd Hf. rewrite (Decode_right _ one) by assumption. cbn [fst]. split; [|intros H; apply list_right; (assumption || lia)].
  intros E. destruct (list_kept internal_decode one offset code fuel Hs Hd Hf) as (_ & H). rewrite E in H.
  destruct (Nat.le_gt_cases (List.length (all_instructions one offset code)) 100) as [?|Hn]; [assumption|exfalso].
  destruct (H O) as (k & H1 & H2 & _ & H3); [lia|].
  destruct (nth_error (all_instructions one offset code) k) as [i|] eqn:Ek; [|apply nth_error_None in Ek; lia].
  apply (later_offset one Hs) in Ek.
  unfold all_instructions in H3. pose proof (consecutive_all one Hs (List.length code) offset code) as Hc. destruct (instructions one (List.length code) offset code) as [|j l]; [discriminate|]. injection H3 as <-. destruct Hc as (Hc & _). lia.
Qed.
