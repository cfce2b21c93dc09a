(** * HostProofs: lemmas about the host. *)
From Coq Require Import ZArith List Ascii String Bool Lia.
From Verif Require Import PyBase PyFacts Platform HostModel HostSpec MapProofs.
Import ListNotations.
Open Scope Z_scope.

Lemma eqb_sub m a : text_eqb m a = true -> m = a.
Proof. apply text_eqb_eq. Qed.
Lemma machine_says byteorder pointer m bits : exists f, cpu_info byteorder pointer (Some m) bits = Ok f /\ says f (cpu_of_machine m) /\
  f_bigendian f = text_eqb byteorder (T "big") /\ f_64bits f = (pointer =? 8) /\ f_word_size f = (if pointer =? 8 then 8 else 4) /\ f_max_uint f = 2 ^ (8 * f_word_size f) - 1.
Proof.
  eexists. split; [reflexivity|]. unfold cpu_of_machine.
  assert (f_max : forall b : bool, (if b then 0xffffffffffffffff else 0xffffffff) = 2 ^ (8 * (if b then 8 else 4)) - 1) by (intros []; reflexivity).
  split; [|split; [reflexivity|split; [reflexivity|split; [reflexivity|exact (f_max _)]]]]. clear f_max. unfold says. cbn [f_ppc32 f_ppc64 f_i386 f_x86_64 f_arm32 f_aarch64 f_riscv32 f_riscv64 f_intel f_powerpc f_arm f_riscv].
  assert (H : forall a, text_eqb m a = true -> m = a) by (intros a; apply text_eqb_eq).
  destruct (text_eqb m (T "ppc")) eqn:E1; [apply H in E1; subst m; repeat split|].
  destruct (text_eqb m (T "ppc64")) eqn:E2; [apply H in E2; subst m; repeat split|].
  destruct (text_eqb m (T "ppc64le")) eqn:E3; [apply H in E3; subst m; repeat split|].
  destruct (text_eqb m (T "i386")) eqn:E4; [apply H in E4; subst m; repeat split|].
  destruct (text_eqb m (T "i686")) eqn:E5; [apply H in E5; subst m; repeat split|].
  destruct (text_eqb m (T "x86_64")) eqn:E6; [apply H in E6; subst m; repeat split|].
  destruct (text_eqb m (T "amd64")) eqn:E7; [apply H in E7; subst m; repeat split|].
  cbn [orb].
  destruct (text_eqb m (T "aarch64")) eqn:E8; [apply H in E8; subst m; repeat split|].
  destruct (text_eqb m (T "riscv32")) eqn:E9; [apply H in E9; subst m; repeat split|].
  destruct (text_eqb m (T "riscv64")) eqn:E10; [apply H in E10; subst m; repeat split|].
  destruct (starts_with (T "arm") m) eqn:E11; repeat split.
Qed.
Lemma windows_says byteorder pointer bits : match cpu_info byteorder pointer None bits with
  | Ok f => bits = T "32bit" /\ says f I386 \/ bits = T "64bit" /\ says f X86_64
  | Err e => e = EValueError /\ bits <> T "32bit" /\ bits <> T "64bit"
  end.
Proof.
  unfold cpu_info. destruct (text_eqb bits (T "32bit")) eqn:E1; [apply text_eqb_eq in E1; left; unfold says; cbn; intuition|].
  destruct (text_eqb bits (T "64bit")) eqn:E2; [apply text_eqb_eq in E2; right; unfold says; cbn; intuition|].
  split; [reflexivity|]. split; intros ->; discriminate.
Qed.
Lemma says_one f c : says f c -> (count_true [f_ppc32 f; f_ppc64 f; f_i386 f; f_x86_64 f; f_arm32 f; f_aarch64 f; f_riscv32 f; f_riscv64 f] <= 1)%nat.
Proof. intros (-> & -> & -> & -> & -> & -> & -> & -> & _). destruct c; cbn; lia. Qed.
(** A 32-bit Python on a 64-bit kernel *)
Lemma mixed_wrong : exists f, cpu_info (T "little") 4 (Some (T "x86_64")) [] = Ok f /\ f_x86_64 f = true /\ f_word_size f = 4 /\ f_i386 f = false.
Proof. eexists. split; [reflexivity|]. repeat split. Qed.
(** arm64 is the name of aarch64 on macOS; i586 is a 32-bit Intel CPU *)
Lemma names_wrong : (exists f, cpu_info (T "little") 8 (Some (T "arm64")) [] = Ok f /\ f_arm32 f = true /\ f_aarch64 f = false) /\
  exists f, cpu_info (T "little") 4 (Some (T "i586")) [] = Ok f /\ f_intel f = false.
Proof. split; eexists; (split; [reflexivity|]); repeat split. Qed.

Lemma starts_sub a b m : starts_with a m = true -> starts_with b m = true -> starts_with a b = true \/ starts_with b a = true.
Proof.
  revert b m. induction a as [|x a IH]; intros b m H1 H2; [now left|]. destruct b as [|y b]; [now right|]. destruct m as [|z m]; [discriminate|].
  cbn in *. apply andb_true_iff in H1 as [E1 H1], H2 as [E2 H2]. apply Ascii.eqb_eq in E1, E2. subst. rewrite Ascii.eqb_refl. cbn. exact (IH _ _ H1 H2).
Qed.
Lemma system_says platform version : exists o, says_os (os_tools platform version) o /\
  (o = Some Linux <-> starts_with (T "linux") platform = true) /\ (o = Some MacOSX <-> platform = T "darwin") /\ (o = Some OpenBSD <-> starts_with (T "openbsd") platform = true) /\
  (o = Some FreeBSD <-> starts_with (T "freebsd") platform = true \/ starts_with (T "gnukfreebsd") platform = true).
Proof.
  unfold os_tools. destruct (starts_with (T "linux") platform) eqn:E1.
  - exists (Some Linux).
    assert (forall b, starts_with (T "linux") b = false -> starts_with b (T "linux") = false -> starts_with b platform = false) as H.
    { intros b H1 H2. apply not_true_iff_false. intros H3. destruct (starts_sub _ _ _ E1 H3); congruence. }
    assert (text_eqb platform (T "darwin") = false) as E2 by (apply not_true_iff_false; intros E; apply text_eqb_eq in E; subst; discriminate).
    rewrite !H by reflexivity. rewrite E2. unfold says_os. cbn. intuition (try discriminate; try congruence). subst. discriminate.
  - destruct (text_eqb platform (T "darwin")) eqn:E2.
    { apply text_eqb_eq in E2. subst. exists (Some MacOSX). unfold says_os. cbn. intuition discriminate. }
    assert (platform <> T "darwin") as Hd by (intros ->; discriminate).
    destruct (starts_with (T "openbsd") platform) eqn:E3.
    { exists (Some OpenBSD).
      assert (forall b, starts_with (T "openbsd") b = false -> starts_with b (T "openbsd") = false -> starts_with b platform = false) as H.
      { intros b H1 H2. apply not_true_iff_false. intros H3. destruct (starts_sub _ _ _ E3 H3); congruence. }
      rewrite !H by reflexivity. unfold says_os. cbn. intuition (try discriminate; try congruence). }
    destruct (starts_with (T "freebsd") platform) eqn:E4; [exists (Some FreeBSD); unfold says_os; cbn; intuition (try discriminate; try congruence)|].
    destruct (starts_with (T "gnukfreebsd") platform) eqn:E5; [exists (Some FreeBSD); unfold says_os; cbn; intuition (try discriminate; try congruence)|].
    exists None. unfold says_os. cbn. intuition (try discriminate; try congruence).
Qed.

(** ** The terminal *)
Lemma echo_bit n : (Z.land n ECHO =? 0) = negb (Z.testbit n 3).
Proof.
  change ECHO with (2 ^ 3). destruct (Z.testbit n 3) eqn:E; cbn [negb].
  - apply Z.eqb_neq. intros H. apply (f_equal (fun x => Z.testbit x 3)) in H. rewrite Z.land_spec, E, Z.pow2_bits_true, Z.bits_0 in H by lia. discriminate.
  - apply Z.eqb_eq. apply Z.bits_inj'. intros k Hk. rewrite Z.land_spec, Z.bits_0. destruct (Z.eq_dec k 3) as [->|Hn]; [now rewrite E|]. rewrite Z.pow2_bits_false by lia. apply andb_false_r.
Qed.
Lemma echo_spec state : enableEchoMode true (Ok state) None =
  if Z.testbit (tm_lflags state) 3 then Ok (false, None) else Ok (true, Some (Termios (tm_before state) (Z.setbit (tm_lflags state) 3) (tm_after state))).
Proof. unfold enableEchoMode. cbn [negb bind]. rewrite echo_bit, negb_involutive. destruct (Z.testbit _ _); reflexivity. Qed.
Lemma echo_on state b state' : enableEchoMode true (Ok state) None = Ok (b, Some state') ->
  b = true /\ Z.testbit (tm_lflags state) 3 = false /\ Z.testbit (tm_lflags state') 3 = true /\ (forall k, 0 <= k -> k <> 3 -> Z.testbit (tm_lflags state') k = Z.testbit (tm_lflags state) k) /\
  tm_before state' = tm_before state /\ tm_after state' = tm_after state.
Proof.
  rewrite echo_spec. destruct (Z.testbit (tm_lflags state) 3) eqn:E; [discriminate|]. intros [= <- <-]. cbn [tm_lflags tm_before tm_after].
  split; [reflexivity|]. split; [reflexivity|]. split; [apply Z.setbit_eq; lia|]. split; [|split; reflexivity]. intros k H1 H2. apply Z.setbit_neq; lia.
Qed.
Lemma echo_twice state b state' : enableEchoMode true (Ok state) None = Ok (b, Some state') -> enableEchoMode true (Ok state') None = Ok (false, None).
Proof. intros H. apply echo_on in H as (_ & _ & H & _). rewrite echo_spec, H. reflexivity. Qed.
Lemma echo_pipe state e : enableEchoMode false state e = Ok (false, None).
Proof. reflexivity. Qed.
Definition le16 (n : Z) : list byte := [z2b (n mod 256); z2b (n / 256)].
Lemma le16_value n : 0 <= n < 65536 -> b2z (z2b (n mod 256)) + 256 * b2z (z2b (n / 256)) = n.
Proof.
  intros H. pose proof (Z.mod_pos_bound n 256 ltac:(lia)). assert (0 <= n / 256 < 256) by (split; [apply Z.div_pos; lia|apply Z.div_lt_upper_bound; lia]).
  rewrite !b2z_z2b_small by lia. rewrite (Z.div_mod n 256) at 3 by lia. lia.
Qed.
Lemma width_right rows cols : 0 <= rows < 65536 -> 0 <= cols < 32768 -> terminalWidth (le16 rows ++ le16 cols) = Ok cols.
Proof.
  intros Hr Hc. unfold terminalWidth, terminalSize, le16. cbn [app bind fst]. rewrite le16_value by lia. unfold signed16. assert (cols <? 32768 = true) as -> by (apply Z.ltb_lt; lia). reflexivity.
Qed.
Lemma width_wrong : exists rows cols, 0 <= rows < 65536 /\ 0 <= cols < 65536 /\ terminalWidth (le16 rows ++ le16 cols) = Ok (-1) /\ cols = 65535.
Proof. exists 24, 65535. split; [lia|]. split; [lia|]. split; reflexivity. Qed.

(** ** Dates *)
Lemma date_utc zone value : 0 <= value <= 2147483647 -> timestampUNIX zone value false = Ok value.
Proof.
  intros H. unfold timestampUNIX, timedelta, add_date, DELTA_MIN, DELTA_MAX, DATE_MIN, DATE_MAX.
  assert ((-999999999 * 86400 <=? value) && (value <=? 999999999 * 86400 + 86399) = true) as -> by (apply andb_true_iff; rewrite !Z.leb_le; lia). cbn [bind].
  rewrite Z.add_0_l. assert ((-62135596800 <=? value) && (value <=? 253402300799) = true) as -> by (apply andb_true_iff; rewrite !Z.leb_le; lia). reflexivity.
Qed.
Lemma date_local zone value : 0 <= value <= 2147483647 -> Z.abs (zone 0) <= 86400 -> timestampUNIX zone value true = Ok (value + zone 0).
Proof.
  intros H Hz. unfold timestampUNIX, timedelta, add_date, LOCAL_TIMEZONE_OFFSET, DELTA_MIN, DELTA_MAX, DATE_MIN, DATE_MAX.
  assert ((-999999999 * 86400 <=? value) && (value <=? 999999999 * 86400 + 86399) = true) as -> by (apply andb_true_iff; rewrite !Z.leb_le; lia). cbn [bind].
  rewrite Z.add_0_l. assert ((-62135596800 <=? value) && (value <=? 253402300799) = true) as -> by (apply andb_true_iff; rewrite !Z.leb_le; lia). cbn [bind].
  assert ((-62135596800 <=? value + zone 0) && (value + zone 0 <=? 253402300799) = true) as -> by (apply andb_true_iff; rewrite !Z.leb_le; lia). reflexivity.
Qed.
Lemma date_fixed zone value : 0 <= value <= 2147483647 -> Z.abs (zone 0) <= 86400 -> zone value = zone 0 -> timestampUNIX zone value true = Ok (local_date zone value).
Proof. intros H1 H2 H3. rewrite date_local by assumption. unfold local_date. now rewrite H3. Qed.
(** Summer time: one hour wrong (2006-07-29 12:20:44 UTC in Paris) *)
Lemma date_wrong : exists zone value d, 0 <= value <= 2147483647 /\ (forall t, Z.abs (zone t) <= 86400) /\ timestampUNIX zone value true = Ok d /\ local_date zone value = d + 3600.
Proof.
  exists (fun t => if 1143334800 <=? t then 7200 else 3600), 1154175644, 1154179244. split; [lia|]. split; [intros t; cbn beta; destruct (1143334800 <=? t); lia|]. split; reflexivity.
Qed.
(** The documented ValueError does not exist *)
Lemma date_unchecked : exists zone value, ~ 0 <= value <= 2147483647 /\ timestampUNIX zone value false = Ok value.
Proof. exists (fun _ => 0), (-1). split; [lia|reflexivity]. Qed.
Lemma date_never_value zone value b : timestampUNIX zone value b <> Err EValueError.
Proof. unfold timestampUNIX, timedelta, add_date. destruct (_ && _); cbn [bind]; [|discriminate]. destruct (_ && _); cbn [bind]; [|discriminate]. destruct b; [|discriminate]. destruct (_ && _); discriminate. Qed.
Lemma boot_kept zone value seconds v value' : getSystemBoot zone value seconds = (value', Ok v) -> value' = Some v /\ forall later, getSystemBoot zone value' later = (value', Ok v).
Proof.
  unfold getSystemBoot. destruct value as [w|]; [intros [= <- <-]; split; [reflexivity|]; reflexivity|]. destruct (do s <- seconds; timestampUNIX zone s true); [|discriminate]. intros [= <- <-]. split; reflexivity.
Qed.
Lemma boot_right zone seconds : 0 <= seconds <= 2147483647 -> Z.abs (zone 0) <= 86400 -> zone seconds = zone 0 -> getSystemBoot zone None (Ok seconds) = (Some (local_date zone seconds), Ok (local_date zone seconds)).
Proof. intros H1 H2 H3. unfold getSystemBoot. cbn [bind]. rewrite date_fixed by assumption. reflexivity. Qed.
Lemma boot_fails zone e : getSystemBoot zone None (Err e) = (None, Err e).
Proof. reflexivity. Qed.
(** Out of the range of datetime: OverflowError *)
Lemma date_overflow zone value : value < DATE_MIN \/ DATE_MAX < value -> timestampUNIX zone value false = Err EOverflowError.
Proof.
  intros H. unfold timestampUNIX, timedelta, add_date. destruct (_ && _); cbn [bind]; [|reflexivity].
  replace ((DATE_MIN <=? 0 + value) && (0 + value <=? DATE_MAX)) with false; [reflexivity|]. symmetry. apply andb_false_iff.
  destruct H; [left|right]; apply Z.leb_gt; lia.
Qed.
Lemma pypy_says platform version : o_pypy (os_tools platform version) = true <-> exists a b, lower version = a ++ T "pypy" ++ b.
Proof.
  unfold os_tools, o_pypy, contains. split.
  - destruct (find_sub _ _) as [n|] eqn:E; [|discriminate]. intros _. apply find_sub_some in E as (a & b & E & _). eauto.
  - intros (a & b & E). apply find_sub_before in E as (n & -> & _). reflexivity.
Qed.
