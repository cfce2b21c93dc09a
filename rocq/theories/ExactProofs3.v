(** * ExactProofs3: sets of descriptors and signals on big-endian processors. *)
From Coq Require Import ZArith List Ascii String Bool Lia.
From Verif Require Import PyBase PyFacts Platform IntModel IntSpec IntProofs SigModel TabModel TabSpec TabProofs MemProofs ArgModel ArgSpec ArgProofs ArgProofs2 ArgProofs3 ExactSpec3.
Import ListNotations.
Open Scope Z_scope.

Lemma mirror_parts p i : 0 <= i -> let W := word_size p in
  0 < W /\ 0 <= i mod (8 * W) / 8 < W /\ 0 <= i mod 8 < 8 /\ 0 <= i / (8 * W) /\ i / 8 = i / (8 * W) * W + i mod (8 * W) / 8 /\
  mirror p i / (8 * W) = i / (8 * W) /\ mirror p i mod (8 * W) = (W - 1 - i mod (8 * W) / 8) * 8 + i mod 8.
Proof.
  intros Hi W. assert (0 < W) as HW by (unfold W, word_size; destruct (p_64bits p); lia).
  pose proof (Z.mod_pos_bound i (8 * W) ltac:(lia)) as Hm. pose proof (Z.div_mod i (8 * W) ltac:(lia)) as Hd.
  assert (i mod (8 * W) / 8 < W) as Hj by (apply Z.div_lt_upper_bound; lia). assert (0 <= i mod (8 * W) / 8) as Hj0 by (apply Z.div_pos; lia).
  pose proof (Z.mod_pos_bound i 8 ltac:(lia)) as Hb. assert (0 <= i / (8 * W)) as Hq by (apply Z.div_pos; lia).
  split; [exact HW|]. split; [lia|]. split; [lia|]. split; [exact Hq|]. split.
  - rewrite Hd at 1. replace (8 * W * (i / (8 * W)) + i mod (8 * W)) with (i mod (8 * W) + (i / (8 * W) * W) * 8) by ring. rewrite Z.div_add by lia. ring.
  - unfold mirror. fold W. cbv zeta. set (r := (W - 1 - i mod (8 * W) / 8) * 8 + i mod 8). assert (0 <= r < 8 * W) as Hr by (unfold r; nia).
    replace (i / (8 * W) * (8 * W) + (W - 1 - i mod (8 * W) / 8) * 8 + i mod 8) with (r + i / (8 * W) * (8 * W)) by (unfold r; ring).
    split; [rewrite Z.div_add, Z.div_small by lia; reflexivity|rewrite Z.mod_add, Z.mod_small by lia; reflexivity].
Qed.
Lemma listed_mirror p bytes i : p_bigendian p = true -> (word_size p | zlen bytes) -> (In i (listed bytes) <-> 0 <= i < 8 * zlen bytes /\ bit_of p bytes (mirror p i) = true).
Proof.
  intros Hbe [k Hk]. rewrite listed_In. enough (0 <= i < 8 * zlen bytes -> bit_of p bytes (mirror p i) = Z.testbit (b2z (nth (Z.to_nat (i / 8)) bytes "000"%char)) (i mod 8)) as H
    by (split; intros (Hi & Hb); (split; [exact Hi|]); [rewrite (H Hi)|rewrite (H Hi) in Hb]; exact Hb).
  intros Hi. destruct (mirror_parts p i (proj1 Hi)) as (HW & Hj & Hb & Hq & Hdiv & H1 & H2). unfold bit_of. rewrite Hbe, H1, H2, Hdiv. clear H1 H2. unfold host_value.
  set (W := word_size p) in *. set (q := i / (8 * W)) in *. set (j := i mod (8 * W) / 8) in *. set (b := i mod 8) in *.
  assert (q * W + W <= zlen bytes) as Hend by (rewrite Hk in *; assert (q < k) by (apply Z.div_lt_upper_bound; lia); nia).
  assert (zlen (slice (q * W) (q * W + W) bytes) = W) as Hlen by (unfold slice; rewrite zlen_firstn, zlen_skipn; nia).
  rewrite <- (rev_involutive (slice (q * W) (q * W + W) bytes)), be_rev, le_testbit by lia.
  assert (zlen (rev (slice (q * W) (q * W + W) bytes)) = W) as -> by (unfold zlen in *; now rewrite rev_length).
  assert ((W - 1 - j) * 8 + b <? 8 * W = true) as -> by (apply Z.ltb_lt; lia).
  rewrite (Z.add_comm _ b). rewrite Z.div_add, Z.mod_add, Z.div_small, Z.mod_small by lia. rewrite Z.add_0_l.
  do 2 f_equal. rewrite rev_nth by (unfold zlen in Hlen; lia). rewrite <- nth_slice with (n := W) by nia. f_equal. unfold zlen in Hlen. lia.
Qed.
Lemma mirror_mirror p i : 0 <= i -> mirror p (mirror p i) = i /\ 0 <= mirror p i.
Proof.
  intros Hi. destruct (mirror_parts p i Hi) as (HW & Hj & Hb & Hq & Hdiv & H1 & H2). pose proof (Z.div_mod i 8 ltac:(lia)) as Hd.
  unfold mirror at 1. cbv zeta. rewrite H1, H2. set (W := word_size p) in *.
  assert (mirror p i mod 8 = i mod 8) as Em.
  { unfold mirror. fold W. cbv zeta. replace (i / (8 * W) * (8 * W) + (W - 1 - i mod (8 * W) / 8) * 8 + i mod 8) with (i mod 8 + (i / (8 * W) * W + (W - 1 - i mod (8 * W) / 8)) * 8) by ring. now rewrite Z.mod_add, Z.mod_mod by lia. }
  rewrite Em. assert (((W - 1 - i mod (8 * W) / 8) * 8 + i mod 8) / 8 = W - 1 - i mod (8 * W) / 8) as -> by (rewrite Z.add_comm, Z.div_add, (Z.div_small (i mod 8)) by lia; ring).
  split; [nia|]. unfold mirror. fold W. cbv zeta. nia.
Qed.
Lemma increasing_filter f l : increasing l -> increasing (filter f l).
Proof.
  induction l as [|x l IH]; intros H; [exact H|]. assert (increasing l) as Hl by (intros y z i j Hy Hz Hij; apply (H y z (S i) (S j)); auto; lia).
  cbn [filter]. destruct (f x); [|apply IH, Hl]. intros y z [|i] [|j] Hy Hz Hij; cbn [nth_error] in *; try lia.
  - injection Hy as <-. apply nth_error_In, filter_In in Hz as [Hz _]. apply In_nth_error in Hz as [k Hk]. apply (H x z 0%nat (S k)); auto. lia.
  - apply (IH Hl y z i j); auto. lia.
Qed.
Lemma fd_set_big p ns repr_fs opts v f a nfds bytes : running_linux p = true -> p_bigendian p = true ->
  absent (a_text a) -> pointer_to a (T "fd_set") -> untreated f a -> a_value a <> 0 ->
  f_args f = nfds :: tl (f_args f) -> memory_at v (a_value a) bytes -> zlen bytes = 128 ->
  exists l, getText p ns repr_fs opts v f a = Ok (formatPointer p opts (T "[" ++ join (T " ") (map str_int l) ++ T "]") (a_value a)) /\
    increasing l /\ (forall i, In i l <-> 0 <= i < 1024 /\ i < a_value nfds /\ bit_of p bytes (mirror p i) = true).
Proof.
  intros Hl He Hx Hp Hu Ha Hf Hm Hlen. exists (filter (fun x => x <? a_value nfds) (listed bytes)). split; [|split].
  - destruct (pointer_text p ns repr_fs opts v f a (T "fd_set") Hx Hp Hu) as [Ht _]; [left; discriminate|]. apply Ht; [|apply formatPointer_nonempty; discriminate].
    unfold formatValuePointer. replace (a_value a =? 0) with false by (symmetry; now apply Z.eqb_neq).
    change (starts_with (T "struct ") (T "fd_set")) with false. cbv iota. change (text_eqb (T "fd_set") (T "sockaddr")) with false. change (text_eqb (T "fd_set") (T "int")) with false. cbv iota.
    assert (dget text_eqb (T "fd_set") (KNOWN_STRUCTS p) = None) as -> by (unfold KNOWN_STRUCTS; rewrite Hl; reflexivity).
    rewrite Hl. change (text_eqb (T "fd_set") (T "fd_set")) with true. cbn [andb]. rewrite Hf. cbn [nth_arg nth_error bind].
    unfold nth_arg. cbn [nth_error bind]. unfold readBits. change (FD_SETSIZE / 8) with 128. rewrite (Hm 128) by lia. cbn [bind].
    rewrite firstn_all2 by (unfold zlen in Hlen; lia). reflexivity.
  - apply increasing_filter. unfold listed. now destruct (set_indices_sorted (iterBits bytes) 0) as [_ H].
  - intros i. rewrite filter_In, (listed_mirror p bytes i He), Hlen, Z.ltb_lt; [|rewrite Hlen; unfold word_size; destruct (p_64bits p); [now exists 16|now exists 32]].
    split; [intros [[? ?] ?]|intros (? & ? & ?)]; repeat split; auto; lia.
Qed.
Lemma sigset_big p ns repr_fs opts v f a size bytes : p_bigendian p = true ->
  absent (a_text a) -> pointer_to a (T "sigset_t") -> untreated f a -> a_value a <> 0 ->
  f_name f = T "rt_sigprocmask" -> find_arg (T "sigsetsize") (f_args f) = Ok size -> 0 <= a_value size -> (word_size p | a_value size) ->
  memory_at v (a_value a) bytes -> zlen bytes = a_value size ->
  exists l, getText p ns repr_fs opts v f a = Ok (formatPointer p opts (T "<sigset=(" ++ join (T " ") (map (signalName ns) l) ++ T ")>") (a_value a)) /\
    increasing l /\ (forall i, In i l <-> 1 <= i <= 8 * a_value size /\ bit_of p bytes (mirror p (i - 1)) = true).
Proof.
  intros He Hx Hp Hu Ha Hn Hsz H0 Hdiv Hm Hlen. exists (map (fun k => k + 1) (listed bytes)). split; [|split].
  - destruct (pointer_text p ns repr_fs opts v f a (T "sigset_t") Hx Hp Hu) as [Ht _]; [left; discriminate|]. apply Ht; [|apply formatPointer_nonempty; discriminate].
    unfold formatValuePointer. replace (a_value a =? 0) with false by (symmetry; now apply Z.eqb_neq).
    change (starts_with (T "struct ") (T "sigset_t")) with false. cbv iota. change (text_eqb (T "sigset_t") (T "sockaddr")) with false. change (text_eqb (T "sigset_t") (T "int")) with false. cbv iota.
    assert (dget text_eqb (T "sigset_t") (KNOWN_STRUCTS p) = None) as -> by (unfold KNOWN_STRUCTS; destruct (running_linux p); reflexivity).
    change (text_eqb (T "sigset_t") (T "fd_set")) with false. rewrite andb_false_r. rewrite Hn.
    change (text_eqb (T "rt_sigprocmask") (T "rt_sigprocmask") && text_eqb (T "sigset_t") (T "sigset_t")) with true. cbv iota.
    rewrite Hsz. cbn [bind]. unfold readBits. rewrite Z.div_mul by lia. rewrite (Hm (a_value size)) by lia. cbn [bind].
    rewrite firstn_all2 by (unfold zlen in Hlen; lia). rewrite map_map. reflexivity.
  - destruct (set_indices_sorted (iterBits bytes) 0) as [_ H]. intros x y i j Hi Hj Hij. rewrite nth_error_map in Hi, Hj. unfold listed in *.
    destruct (nth_error (set_indices 0 (iterBits bytes)) i) as [x'|] eqn:Ex; [|discriminate]. destruct (nth_error (set_indices 0 (iterBits bytes)) j) as [y'|] eqn:Ey; [|discriminate].
    injection Hi as <-. injection Hj as <-. pose proof (H _ _ _ _ Ex Ey Hij). lia.
  - intros i. rewrite in_map_iff. split.
    + intros (k & <- & Hk). apply (listed_mirror p bytes k He) in Hk as (Hk & Hb); [|now rewrite Hlen]. replace (k + 1 - 1) with k by lia. split; [lia|exact Hb].
    + intros (Hi & Hb). exists (i - 1). split; [lia|]. apply (listed_mirror p bytes _ He); [now rewrite Hlen|]. split; [lia|exact Hb].
Qed.
