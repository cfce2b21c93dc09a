From Coq Require Import ZArith List Ascii String Bool Lia.
From Verif Require Import PyBase PyFacts Platform IntModel IntSpec IntProofs SigModel TabModel TabSpec TabProofs MemProofs ArgModel ArgSpec ArgProofs.
Import ListNotations.
Open Scope Z_scope.

Section Facts.
  Context (p : platform) (ns : namespace) (repr_fs : list byte -> text) (opts : options) (v : view).

  Lemma formatPointer_spec t a : 0 < a -> pointed p opts t a (formatPointer p opts t a).
  Proof.
    intros Ha. unfold pointed, formatPointer. destruct (o_write_address opts); [|reflexivity].
    exists (formatAddress p a). split; [now apply formatAddress_hex|reflexivity].
  Qed.
  Lemma read_raw_at a bytes n : memory_at v a bytes -> 0 <= n <= zlen bytes -> read_raw v a n = Ok (firstn (Z.to_nat n) bytes).
  Proof.
    intros Hm Hn. unfold read_raw. rewrite (Hm n Hn). cbn [bind]. rewrite zlen_firstn.
    replace (Z.min (Z.of_nat (Z.to_nat n)) (zlen bytes) <? n) with false by (symmetry; apply Z.ltb_ge; lia).
    rewrite pyslice_to by lia. rewrite firstn_firstn, Nat.min_id. reflexivity.
  Qed.
  Lemma ip_spec b0 b1 b2 b3 : repr_in_addr (host_value false [b0; b1; b2; b3]) = Ok (dotted [b0; b1; b2; b3]).
  Proof.
    unfold repr_in_addr. rewrite ntoh_uint_bytes. cbn [bind]. unfold ip_int2str.
    pose proof (host_value_range true [b0; b1; b2; b3]) as Hr. change (host_value true [b0; b1; b2; b3]) with (big_endian_value [b0; b1; b2; b3]) in Hr.
    pose proof (unpack_pack true [b0; b1; b2; b3] _ (unpack_host true _)) as Hp. cbn [List.length] in Hp. change (host_value true [b0; b1; b2; b3]) with (big_endian_value [b0; b1; b2; b3]) in Hp.
    rewrite Hp. reflexivity.
  Qed.
  Lemma u2 b0 b1 : unpack_uint false 2 [b0; b1] = Ok (host_value false [b0; b1]).
  Proof. exact (unpack_host false [b0; b1]). Qed.
  Lemma u4 b0 b1 b2 b3 : unpack_uint false 4 [b0; b1; b2; b3] = Ok (host_value false [b0; b1; b2; b3]).
  Proof. exact (unpack_host false [b0; b1; b2; b3]). Qed.
  Lemma u1 b0 : unpack_uint false 1 [b0] = Ok (b2z b0).
  Proof. transitivity (Ok (host_value false [b0])); [exact (unpack_host false [b0])|]. f_equal. Qed.
  Lemma group_spec b0 b1 : (do n <- ntoh_ushort (host_value false [b0; b1]); Ok (fmt_int0 16 4 n)) = Ok (fmt_int0 16 4 (b2z b0 * 256 + b2z b1)).
  Proof. rewrite ntoh_ushort_bytes. cbn [bind]. do 2 f_equal. Qed.

  Lemma inet_linux a f0 f1 p0 p1 a0 a1 a2 a3 : running_bsd p = false -> p_bigendian p = false -> host_value false [f0; f1] = 2 ->
    memory_at v a [f0; f1; p0; p1; a0; a1; a2; a3] ->
    formatSockaddr p opts v a = Ok (formatPointer p opts (T "<sockaddr_in sin_family=2, sin_port=" ++ str_int (big_endian_value [p0; p1]) ++
      T ", sin_addr=" ++ dotted [a0; a1; a2; a3] ++ T ">") a).
  Proof.
    intros Hb He Hf Hm. unfold formatSockaddr, sockaddr, sa_family_t. rewrite Hb, He.
    change (struct_size [(T "family", CInt false 2)]) with 2. rewrite (read_raw_at a _ 2 Hm) by (unfold zlen; cbn; lia). cbn [bind].
    change (dget text_eqb (T "family") (struct_layout 0 [(T "family", CInt false 2)])) with (Some (0, CInt false 2)).
    cbn [ct_size]. change (slice 0 (0 + 2) (firstn (Z.to_nat 2) [f0; f1; p0; p1; a0; a1; a2; a3])) with [f0; f1]. unfold get_cvalue at 1.
    change (Z.to_nat 2) with 2%nat. rewrite u2. cbn [bind]. rewrite Hf. change (2 =? AF_INET) with true. cbv iota.
    unfold readStruct, sockaddr_in, sa_family_t. rewrite Hb, He.
    change (struct_size [(T "sin_family", CInt false 2); (T "sin_port", CInt false 2); (T "sin_addr", CInAddr)]) with 8.
    rewrite (read_raw_at a _ 8 Hm) by (unfold zlen; cbn; lia). cbn [bind].
    change (struct_layout 0 [(T "sin_family", CInt false 2); (T "sin_port", CInt false 2); (T "sin_addr", CInAddr)]) with
      [(T "sin_family", (0, CInt false 2)); (T "sin_port", (2, CInt false 2)); (T "sin_addr", (4, CInAddr))].
    cbn [mapM ct_size]. change (firstn (Z.to_nat 8) [f0; f1; p0; p1; a0; a1; a2; a3]) with [f0; f1; p0; p1; a0; a1; a2; a3].
    change (slice 0 (0 + 2) [f0; f1; p0; p1; a0; a1; a2; a3]) with [f0; f1].
    change (slice 2 (2 + 2) [f0; f1; p0; p1; a0; a1; a2; a3]) with [p0; p1].
    change (slice 4 (4 + 4) [f0; f1; p0; p1; a0; a1; a2; a3]) with [a0; a1; a2; a3].
    unfold get_cvalue. change (Z.to_nat 2) with 2%nat. rewrite !u2, u4. cbn [bind]. rewrite Hf.
    unfold format_field, formatStructValue.
    change (text_eqb (T "sockaddr_in") (T "sockaddr_in")) with true. change (text_eqb (T "sockaddr_in") (T "sockaddr_in6")) with false.
    change (text_eqb (T "sin_family") (T "sin_port")) with false. change (text_eqb (T "sin_port") (T "sin_port")) with true. change (text_eqb (T "sin_addr") (T "sin_port")) with false.
    cbn [andb orb]. rewrite ntoh_ushort_bytes. cbn [bind repr_cvalue]. rewrite ip_spec. cbn [bind].
    unfold join. do 2 f_equal. rewrite <- !app_assoc. reflexivity.
  Qed.
  Lemma inet_bsd a f0 f1 p0 p1 a0 a1 a2 a3 : running_bsd p = true -> p_bigendian p = false -> b2z f1 = 2 ->
    memory_at v a [f0; f1; p0; p1; a0; a1; a2; a3] ->
    formatSockaddr p opts v a = Ok (formatPointer p opts (T "<sockaddr_in sin_len=" ++ str_int (b2z f0) ++ T ", sin_family=2, sin_port=" ++ str_int (big_endian_value [p0; p1]) ++
      T ", sin_addr=" ++ dotted [a0; a1; a2; a3] ++ T ">") a).
  Proof.
    intros Hb He Hf Hm. unfold formatSockaddr, sockaddr, sa_family_t. rewrite Hb, He.
    change (struct_size [(T "len", CInt false 1); (T "family", CInt false 1)]) with 2. rewrite (read_raw_at a _ 2 Hm) by (unfold zlen; cbn; lia). cbn [bind].
    change (dget text_eqb (T "family") (struct_layout 0 [(T "len", CInt false 1); (T "family", CInt false 1)])) with (Some (1, CInt false 1)).
    cbn [ct_size]. change (slice 1 (1 + 1) (firstn (Z.to_nat 2) [f0; f1; p0; p1; a0; a1; a2; a3])) with [f1]. unfold get_cvalue at 1.
    change (Z.to_nat 1) with 1%nat. rewrite u1. cbn [bind]. rewrite Hf. change (2 =? AF_INET) with true. cbv iota.
    unfold readStruct, sockaddr_in, sa_family_t. rewrite Hb, He.
    change (struct_size [(T "sin_len", CInt false 1); (T "sin_family", CInt false 1); (T "sin_port", CInt false 2); (T "sin_addr", CInAddr)]) with 8.
    rewrite (read_raw_at a _ 8 Hm) by (unfold zlen; cbn; lia). cbn [bind].
    change (struct_layout 0 [(T "sin_len", CInt false 1); (T "sin_family", CInt false 1); (T "sin_port", CInt false 2); (T "sin_addr", CInAddr)]) with
      [(T "sin_len", (0, CInt false 1)); (T "sin_family", (1, CInt false 1)); (T "sin_port", (2, CInt false 2)); (T "sin_addr", (4, CInAddr))].
    cbn [mapM ct_size]. change (firstn (Z.to_nat 8) [f0; f1; p0; p1; a0; a1; a2; a3]) with [f0; f1; p0; p1; a0; a1; a2; a3].
    change (slice 0 (0 + 1) [f0; f1; p0; p1; a0; a1; a2; a3]) with [f0].
    change (slice 1 (1 + 1) [f0; f1; p0; p1; a0; a1; a2; a3]) with [f1].
    change (slice 2 (2 + 2) [f0; f1; p0; p1; a0; a1; a2; a3]) with [p0; p1].
    change (slice 4 (4 + 4) [f0; f1; p0; p1; a0; a1; a2; a3]) with [a0; a1; a2; a3].
    unfold get_cvalue. change (Z.to_nat 2) with 2%nat. change (Z.to_nat 1) with 1%nat. rewrite !u2, u4, !u1. cbn [bind]. rewrite Hf.
    unfold format_field, formatStructValue.
    change (text_eqb (T "sockaddr_in") (T "sockaddr_in")) with true. change (text_eqb (T "sockaddr_in") (T "sockaddr_in6")) with false.
    change (text_eqb (T "sin_len") (T "sin_port")) with false.
    change (text_eqb (T "sin_family") (T "sin_port")) with false. change (text_eqb (T "sin_port") (T "sin_port")) with true. change (text_eqb (T "sin_addr") (T "sin_port")) with false.
    cbn [andb orb]. rewrite ntoh_ushort_bytes. cbn [bind repr_cvalue]. rewrite ip_spec. cbn [bind].
    unfold join. do 2 f_equal. rewrite <- !app_assoc. reflexivity.
  Qed.
  Lemma inet6_linux a f0 f1 p0 p1 w0 w1 w2 w3 a0 a1 a2 a3 a4 a5 a6 a7 a8 a9 a10 a11 a12 a13 a14 a15 s0 s1 s2 s3 :
    p_os p = Linux -> p_bigendian p = false -> host_value false [f0; f1] = 10 ->
    memory_at v a [f0; f1; p0; p1; w0; w1; w2; w3; a0; a1; a2; a3; a4; a5; a6; a7; a8; a9; a10; a11; a12; a13; a14; a15; s0; s1; s2; s3] ->
    formatSockaddr p opts v a = Ok (formatPointer p opts (T "<sockaddr_in6 sin6_family=10, sin6_port=" ++ str_int (big_endian_value [p0; p1]) ++
      T ", sin6_flowinfo=" ++ str_int (host_value false [w0; w1; w2; w3]) ++
      T ", sin6_addr=<in6_addr " ++ join (T ":") (groups [a0; a1; a2; a3; a4; a5; a6; a7; a8; a9; a10; a11; a12; a13; a14; a15]) ++
      T ">, sin6_scope_ip=" ++ str_int (host_value false [s0; s1; s2; s3]) ++ T ">") a).
  Proof.
    intros Hos He Hf Hm. assert (running_bsd p = false) as Hb by (unfold running_bsd, running_linux; rewrite Hos; reflexivity).
    unfold formatSockaddr, sockaddr, sa_family_t. rewrite Hb, He.
    change (struct_size [(T "family", CInt false 2)]) with 2. rewrite (read_raw_at a _ 2 Hm) by (unfold zlen; cbn; lia). cbn [bind].
    change (dget text_eqb (T "family") (struct_layout 0 [(T "family", CInt false 2)])) with (Some (0, CInt false 2)).
    cbn [ct_size]. set (bs := [f0; f1; p0; p1; w0; w1; w2; w3; a0; a1; a2; a3; a4; a5; a6; a7; a8; a9; a10; a11; a12; a13; a14; a15; s0; s1; s2; s3]) in *.
    change (slice 0 (0 + 2) (firstn (Z.to_nat 2) bs)) with [f0; f1]. unfold get_cvalue at 1.
    change (Z.to_nat 2) with 2%nat. rewrite u2. cbn [bind]. rewrite Hf. change (10 =? AF_INET) with false. unfold AF_INET6. rewrite Hos. change (10 =? 10) with true. cbv iota.
    unfold readStruct, sockaddr_in6, sa_family_t. rewrite Hb, He.
    set (st := [(T "sin6_family", CInt false 2); (T "sin6_port", CInt false 2); (T "sin6_flowinfo", CInt false 4); (T "sin6_addr", CIn6Addr); (T "sin6_scope_ip", CInt false 4)]).
    change (struct_size st) with 28. rewrite (read_raw_at a _ 28 Hm) by (unfold zlen; cbn; lia). cbn [bind].
    change (struct_layout 0 st) with
      [(T "sin6_family", (0, CInt false 2)); (T "sin6_port", (2, CInt false 2)); (T "sin6_flowinfo", (4, CInt false 4)); (T "sin6_addr", (8, CIn6Addr)); (T "sin6_scope_ip", (24, CInt false 4))].
    cbn [mapM ct_size]. change (firstn (Z.to_nat 28) bs) with bs.
    change (slice 0 (0 + 2) bs) with [f0; f1]. change (slice 2 (2 + 2) bs) with [p0; p1]. change (slice 4 (4 + 4) bs) with [w0; w1; w2; w3]. change (slice 24 (24 + 4) bs) with [s0; s1; s2; s3].
    change (slice 8 (8 + 16) bs) with [a0; a1; a2; a3; a4; a5; a6; a7; a8; a9; a10; a11; a12; a13; a14; a15].
    unfold get_cvalue. change (Z.to_nat 2) with 2%nat. change (Z.to_nat 4) with 4%nat. rewrite !u2, !u4. cbn [bind]. rewrite Hf.
    change (zrange 8) with [0; 1; 2; 3; 4; 5; 6; 7]. cbn [mapM].
    set (ab := [a0; a1; a2; a3; a4; a5; a6; a7; a8; a9; a10; a11; a12; a13; a14; a15]).
    change (slice (2 * 0) (2 * 0 + 2) ab) with [a0; a1]. change (slice (2 * 1) (2 * 1 + 2) ab) with [a2; a3]. change (slice (2 * 2) (2 * 2 + 2) ab) with [a4; a5].
    change (slice (2 * 3) (2 * 3 + 2) ab) with [a6; a7]. change (slice (2 * 4) (2 * 4 + 2) ab) with [a8; a9]. change (slice (2 * 5) (2 * 5 + 2) ab) with [a10; a11].
    change (slice (2 * 6) (2 * 6 + 2) ab) with [a12; a13]. change (slice (2 * 7) (2 * 7 + 2) ab) with [a14; a15].
    rewrite !u2. cbn [bind].
    unfold format_field, formatStructValue.
    change (text_eqb (T "sockaddr_in6") (T "sockaddr_in")) with false. change (text_eqb (T "sockaddr_in6") (T "sockaddr_in6")) with true.
    change (text_eqb (T "sin6_family") (T "sin6_port")) with false. change (text_eqb (T "sin6_port") (T "sin6_port")) with true. change (text_eqb (T "sin6_flowinfo") (T "sin6_port")) with false.
    change (text_eqb (T "sin6_addr") (T "sin6_port")) with false. change (text_eqb (T "sin6_scope_ip") (T "sin6_port")) with false.
    cbn [andb orb]. rewrite ntoh_ushort_bytes. cbn [bind repr_cvalue]. unfold repr_in6_addr. cbn [mapM]. rewrite !group_spec. cbn [bind].
    unfold ab. cbn [groups]. unfold join. do 2 f_equal. rewrite <- !app_assoc. reflexivity.
  Qed.

  (** ** C61 *)
  Lemma fd_set_spec f a nfds bytes : running_linux p = true -> p_bigendian p = false -> a <> 0 -> f_args f = nfds :: tl (f_args f) ->
    memory_at v a bytes -> zlen bytes = 128 ->
    exists l, formatValuePointer p ns opts v f a (T "fd_set") = Ok (Some (formatPointer p opts (T "[" ++ join (T " ") (map str_int l) ++ T "]") a)) /\
      increasing l /\ (forall i, In i l <-> 0 <= i < 1024 /\ i < a_value nfds /\ bit_of p bytes i = true).
  Proof.
    intros Hl He Ha Hf Hm Hlen. exists (filter (fun x => x <? a_value nfds) (listed bytes)). split.
    - unfold formatValuePointer. replace (a =? 0) with false by (symmetry; now apply Z.eqb_neq).
      change (starts_with (T "struct ") (T "fd_set")) with false. cbv iota. change (text_eqb (T "fd_set") (T "sockaddr")) with false. change (text_eqb (T "fd_set") (T "int")) with false. cbv iota.
      assert (dget text_eqb (T "fd_set") (KNOWN_STRUCTS p) = None) as -> by (unfold KNOWN_STRUCTS; rewrite Hl; reflexivity).
      rewrite Hl. change (text_eqb (T "fd_set") (T "fd_set")) with true. cbn [andb]. rewrite Hf. cbn [nth_arg nth_error bind].
      unfold nth_arg. cbn [nth_error bind]. unfold readBits. change (FD_SETSIZE / 8) with 128. rewrite (Hm 128) by lia. cbn [bind].
      rewrite firstn_all2 by (unfold zlen in Hlen; lia). reflexivity.
    - split.
      + unfold listed. destruct (set_indices_sorted (iterBits bytes) 0) as [_ H]. revert H. generalize (set_indices 0 (iterBits bytes)). intros l.
        (* a sublist of an increasing list is increasing *)
        assert (forall l, increasing l -> increasing (filter (fun x => x <? a_value nfds) l)) as Hs; [|apply Hs].
        clear. intros l. induction l as [|x l IH]; intros H; [exact H|]. 
        assert (increasing l) as Hl. { intros y z i j Hy Hz Hij. apply (H y z (S i) (S j)); auto. lia. }
        cbn [filter]. destruct (x <? a_value nfds); [|apply IH, Hl]. intros y z [|i] [|j] Hy Hz Hij; cbn [nth_error] in *; try lia.
        * injection Hy as <-. apply nth_error_In, filter_In in Hz as [Hz _]. apply In_nth_error in Hz as [k Hk]. apply (H x z 0%nat (S k)); auto. lia.
        * apply (IH Hl y z i j); auto. lia.
      + intros i. rewrite filter_In, (listed_bits p bytes i He), Hlen.
        * rewrite Z.ltb_lt. split; [intros [[? ?] ?]|intros (? & ? & ?)]; repeat split; auto; lia.
        * rewrite Hlen. unfold word_size. destruct (p_64bits p); [exists 16|exists 32]; reflexivity.
  Qed.
  Lemma sigset_spec f a size bytes : p_bigendian p = false -> a <> 0 -> f_name f = T "rt_sigprocmask" -> find_arg (T "sigsetsize") (f_args f) = Ok size ->
    0 <= a_value size -> (word_size p | a_value size) ->
    memory_at v a bytes -> zlen bytes = a_value size ->
    exists l, formatValuePointer p ns opts v f a (T "sigset_t") = Ok (Some (formatPointer p opts (T "<sigset=(" ++ join (T " ") (map (signalName ns) l) ++ T ")>") a)) /\
      increasing l /\ (forall i, In i l <-> 1 <= i <= 8 * a_value size /\ bit_of p bytes (i - 1) = true).
  Proof.
    intros He Ha Hn Hsz H0 Hdiv Hm Hlen. exists (map (fun k => k + 1) (listed bytes)). split.
    - unfold formatValuePointer. replace (a =? 0) with false by (symmetry; now apply Z.eqb_neq).
      change (starts_with (T "struct ") (T "sigset_t")) with false. cbv iota. change (text_eqb (T "sigset_t") (T "sockaddr")) with false. change (text_eqb (T "sigset_t") (T "int")) with false. cbv iota.
      assert (dget text_eqb (T "sigset_t") (KNOWN_STRUCTS p) = None) as -> by (unfold KNOWN_STRUCTS; destruct (running_linux p); reflexivity).
      change (text_eqb (T "sigset_t") (T "fd_set")) with false. rewrite andb_false_r. rewrite Hn.
      change (text_eqb (T "rt_sigprocmask") (T "rt_sigprocmask") && text_eqb (T "sigset_t") (T "sigset_t")) with true. cbv iota.
      rewrite Hsz. cbn [bind]. unfold readBits. rewrite Z.div_mul by lia. rewrite (Hm (a_value size)) by lia. cbn [bind].
      rewrite firstn_all2 by (unfold zlen in Hlen; lia). rewrite map_map. reflexivity.
    - split.
      + destruct (set_indices_sorted (iterBits bytes) 0) as [_ H]. intros x y i j Hx Hy Hij.
        rewrite nth_error_map in Hx, Hy. unfold listed in *. destruct (nth_error (set_indices 0 (iterBits bytes)) i) as [x'|] eqn:Ex; [|discriminate].
        destruct (nth_error (set_indices 0 (iterBits bytes)) j) as [y'|] eqn:Ey; [|discriminate]. cbn [option_map] in *. injection Hx as <-. injection Hy as <-.
        pose proof (H _ _ i j Ex Ey Hij). lia.
      + intros i. rewrite in_map_iff. split.
        * intros (k & <- & Hk). apply (listed_bits p bytes k He) in Hk; [|now rewrite Hlen]. replace (k + 1 - 1) with k by lia. split; [lia|apply Hk].
        * intros [H1 H2]. exists (i - 1). split; [lia|]. apply (listed_bits p bytes _ He); [now rewrite Hlen|]. split; [lia|exact H2].
  Qed.

  (** ** Pointer arguments *)
  Notation getText := (getText p ns repr_fs opts v).
  Notation createText := (createText p ns repr_fs opts v).
  Lemma skip_const t : starts_with (T "const ") (T "const " ++ t) = true /\ skipn 6 (T "const " ++ t) = t.
  Proof. split; [apply starts_with_spec; now exists t|reflexivity]. Qed.
  Lemma strip_star base : strip base = base -> strip (removelast (base ++ T " *")) = base.
  Proof.
    intros H. replace (base ++ T " *") with ((base ++ [" "%char]) ++ ["*"%char]) by (rewrite <- app_assoc; reflexivity). rewrite removelast_last.
    unfold strip in *. unfold rstrip in *. rewrite <- H at 2. f_equal.
    assert (forall l, lstrip (" "%char :: l) = lstrip l) as Hsp by reflexivity.
    assert (forall l, exists k, lstrip l = skipn k l) as Hsk.
    { induction l as [|c l [k Hk]]; [now exists 0%nat|]. cbn. destruct (is_space c); [exists (S k); exact Hk|now exists 0%nat]. }
    assert (forall l, Forall (fun c => is_space c = true) l \/ lstrip (l ++ [" "%char]) = lstrip l ++ [" "%char]) as Hcase.
    { induction l as [|c l IH]; [now left|]. cbn. destruct (is_space c) eqn:E; [|now right]. destruct IH as [IH|IH]; [left; constructor; auto|right; exact IH]. }
    destruct (Hcase base) as [Hall|E].
    - assert (forall l, Forall (fun c => is_space c = true) l -> lstrip l = []) as Hnil by (induction 1 as [|c l Hc Hl IH]; cbn; [reflexivity|now rewrite Hc]).
      rewrite (Hnil base Hall). rewrite (Hnil (base ++ [" "%char])); [reflexivity|]. apply Forall_app. split; [exact Hall|now repeat constructor].
    - rewrite E, rev_app_distr. cbn [rev app]. now rewrite Hsp.
  Qed.
  Lemma starts_app_false t : starts_with (T "const") t = false -> starts_with (T "const ") (t ++ T " *") = false.
  Proof.
    intros H. destruct (starts_with (T "const ") (t ++ T " *")) eqn:E; [|reflexivity]. apply starts_with_spec in E as [r Hr].
    do 5 (destruct t as [|? t]; [discriminate Hr|cbn [app T list_ascii_of_string] in Hr; injection Hr as -> Hr]). discriminate H.
  Qed.
  Lemma special_none f a nm : a_name a = Some nm -> nm <> [] -> (~ In (f_name f) treated_calls \/ (f_name f = T "rt_sigprocmask" /\ nm <> T "how")) ->
    match dget text_eqb (f_name f) (SYSCALL_ARG_DICT p) with
    | Some d => match dget text_eqb nm d with Some d => dget Z.eqb (a_value a) d | None => None end
    | None => None
    end = None /\
    argument_callback p ns opts v (f_name f) nm = None /\ text_eqb (f_name f) (T "execve") = false /\ text_eqb (f_name f) (T "socketcall") = false /\ text_eqb (f_name f) (T "write") = false.
  Proof.
    intros Hn Hne [Ho|[Hf Hh]].
    - assert (forall x, In x treated_calls -> text_eqb (f_name f) x = false) as Hx.
      { intros x Hx. apply text_eqb_neq. intros E. apply Ho. rewrite E. exact Hx. }
      assert (dget text_eqb (f_name f) (SYSCALL_ARG_DICT p) = None) as ->.
      { apply (dget_None text_eqb text_eqb_iff). intros Hin. apply Ho. exact (incl_check _ treated_calls (dict_treated p) _ Hin). }
      unfold argument_callback. rewrite !(fun x H => Hx x (in_check x _ H)) by reflexivity. cbn [andb]. repeat split.
    - rewrite Hf. split.
      + assert (forall d, dget text_eqb (T "rt_sigprocmask") (SYSCALL_ARG_DICT p) = Some d -> dget text_eqb nm d = None) as Hd.
        { intros d. unfold SYSCALL_ARG_DICT. destruct (p_os p).
          - match goal with |- ?x = Some d -> _ => change x with (Some [(T "how", linux_SIGPROCMASK_HOW)]) end. intros [= <-]. cbn [dget]. apply text_eqb_neq in Hh. change (T "how") with ["h"; "o"; "w"]%char in Hh. now rewrite Hh.
          - match goal with |- ?x = Some d -> _ => change x with (Some [(T "how", freebsd_SIGPROCMASK_HOW)]) end. intros [= <-]. cbn [dget]. apply text_eqb_neq in Hh. change (T "how") with ["h"; "o"; "w"]%char in Hh. now rewrite Hh.
          - discriminate.
          - discriminate. }
        destruct (dget text_eqb (T "rt_sigprocmask") (SYSCALL_ARG_DICT p)) as [d|]; [|reflexivity]. now rewrite (Hd d eq_refl).
      + split; [reflexivity|repeat split].
  Qed.
  Lemma pointer_text f a base : absent (a_text a) -> pointer_to a base -> untreated f a ->
    (base <> T "char" \/ existsb (text_eqb (get (a_name a))) FILENAME_ARGUMENTS = false) ->
    (forall t, formatValuePointer p ns opts v f (a_value a) base = Ok (Some t) -> t <> [] -> getText f a = Ok t) /\
    (formatValuePointer p ns opts v f (a_value a) base = Ok None -> getText f a = Ok (formatAddress p (a_value a))) /\
    (forall e, formatValuePointer p ns opts v f (a_value a) base = Err e -> is_exception e = true -> getText f a = Ok (formatAddress p (a_value a))).
  Proof.
    intros Hx (Hb & Hstrip & Hconst & Hty) (nm & Hn & Hne & Hsig & Hcall) Hfile.
    assert (createText f a = createText_type p ns opts v f (a_value a) (base ++ T " *")) as Hc.
    { unfold ArgModel.createText, createText_. destruct (special_none f a nm Hn Hne Hcall) as (H1 & H2 & H3 & H4 & H5).
      rewrite Hn in *. cbn [get] in *. rewrite H1, H2, H3, H4, H5. cbn [andb bind].
      assert (truthy (Some nm) = true) as -> by (destruct nm; [congruence|reflexivity]).
      replace (text_eqb nm (T "signum")) with false by (symmetry; apply text_eqb_neq; exact Hsig).
      assert (truthy (a_type a) = true) as -> by (destruct Hty as [-> | ->]; [destruct base; [congruence|reflexivity]|reflexivity]). cbn [negb orb].
      assert ((if starts_with (T "const ") (get (a_type a)) then skipn 6 (get (a_type a)) else get (a_type a)) = base ++ T " *") as ->.
      { destruct Hty as [-> | ->]; cbn [get].
        - replace (starts_with (T "const ") (base ++ T " *")) with false; [reflexivity|]. symmetry. now apply starts_app_false.
        - destruct (skip_const (base ++ T " *")) as [-> ->]. reflexivity. }
      replace (existsb (text_eqb nm) FILENAME_ARGUMENTS && text_eqb (base ++ T " *") (T "char *")) with false; [reflexivity|]. symmetry.
      destruct Hfile as [Hf|Hf]; [|now rewrite Hf]. replace (text_eqb (base ++ T " *") (T "char *")) with false; [apply andb_false_r|]. symmetry. apply text_eqb_neq.
      change (T "char *") with (T "char" ++ T " *"). intros E. apply app_inv_tail in E. contradiction. }
    unfold ArgModel.getText, getText_. replace (truthy (a_text a)) with false by (destruct Hx as [-> | ->]; reflexivity).
    rewrite Hc. unfold createText_type. replace (ends_with (T "*") (base ++ T " *")) with true by (symmetry; apply ends_with_spec; exists (base ++ T " "); rewrite <- app_assoc; reflexivity).
    rewrite (strip_star base Hstrip). split; [|split].
    - intros t -> Ht. destruct t; [congruence|reflexivity].
    - intros ->. reflexivity.
    - intros e -> ->. reflexivity.
  Qed.
  Lemma pointer_null f a base : absent (a_text a) -> pointer_to a base -> untreated f a ->
    (base <> T "char" \/ existsb (text_eqb (get (a_name a))) FILENAME_ARGUMENTS = false) -> a_value a = 0 -> getText f a = Ok (T "NULL").
  Proof.
    intros Hx Hp Hu Hf Hv. destruct (pointer_text f a base Hx Hp Hu Hf) as [H _]. apply H; [|discriminate]. unfold formatValuePointer. rewrite Hv. reflexivity.
  Qed.
  Lemma filename_text f a nm : absent (a_text a) -> pointer_to a (T "char") -> untreated f a -> a_name a = Some nm -> In nm FILENAME_ARGUMENTS ->
    createText f a = (do t <- readCString p repr_fs opts v (a_value a); Ok (Some t)).
  Proof.
    intros Hx (Hb & Hstrip & Hconst & Hty) (nm' & Hn & Hne & Hsig & Hcall) Hn' Hin. rewrite Hn in Hn'. injection Hn' as ->.
    unfold ArgModel.createText, createText_. destruct (special_none f a nm Hn Hne Hcall) as (H1 & H2 & H3 & H4 & H5).
    rewrite Hn in *. cbn [get] in *. rewrite H1, H2, H3, H4, H5. cbn [andb bind].
    assert (truthy (Some nm) = true) as -> by (destruct nm; [congruence|reflexivity]).
    replace (text_eqb nm (T "signum")) with false by (symmetry; apply text_eqb_neq; exact Hsig).
    assert (existsb (text_eqb nm) FILENAME_ARGUMENTS = true) as He by (apply existsb_exists; exists nm; split; [exact Hin|now apply text_eqb_eq]).
    rewrite He. destruct Hty as [-> | ->]; reflexivity.
  Qed.
  Lemma filename_shown f a nm data truncated : absent (a_text a) -> pointer_to a (T "char") -> untreated f a -> a_name a = Some nm -> In nm FILENAME_ARGUMENTS ->
    a_value a <> 0 -> v_cstring v (a_value a) (o_string_max_length opts) = Ok (data, truncated) ->
    getText f a = Ok (formatPointer p opts (if truncated then repr_fs data ++ T "..." else repr_fs data) (a_value a)).
  Proof.
    intros Hx Hp Hu Hn Hin Hv Hs. unfold ArgModel.getText, getText_. replace (truthy (a_text a)) with false by (destruct Hx as [-> | ->]; reflexivity).
    rewrite (filename_text f a nm Hx Hp Hu Hn Hin). unfold readCString. replace (a_value a =? 0) with false by (symmetry; now apply Z.eqb_neq). cbn [negb].
    rewrite Hs. reflexivity.
  Qed.
  Lemma filename_null f a nm : absent (a_text a) -> pointer_to a (T "char") -> untreated f a -> a_name a = Some nm -> In nm FILENAME_ARGUMENTS ->
    a_value a = 0 -> getText f a = Ok (if o_write_address opts then T "NULL at NULL" else T "NULL").
  Proof.
    intros Hx Hp Hu Hn Hin Hv. unfold ArgModel.getText, getText_. replace (truthy (a_text a)) with false by (destruct Hx as [-> | ->]; reflexivity).
    rewrite (filename_text f a nm Hx Hp Hu Hn Hin), Hv, (readCString_null p repr_fs opts v). reflexivity.
  Qed.
  Lemma filename_error f a nm e : absent (a_text a) -> pointer_to a (T "char") -> untreated f a -> a_name a = Some nm -> In nm FILENAME_ARGUMENTS ->
    a_value a <> 0 -> v_cstring v (a_value a) (o_string_max_length opts) = Err e -> is_exception e = true -> getText f a = Ok (str_int (a_value a)).
  Proof.
    intros Hx Hp Hu Hn Hin Hv Hs He. destruct (getText_fallback p ns repr_fs opts v f a Hx) as (_ & H & _). apply (H e); [|exact He].
    rewrite (filename_text f a nm Hx Hp Hu Hn Hin). unfold readCString. replace (a_value a =? 0) with false by (symmetry; now apply Z.eqb_neq). cbn [negb].
    rewrite Hs. reflexivity.
  Qed.
  (** buffers of write() *)
  Lemma write_text f fd buf count rest data : f_name f = T "write" -> f_args f = fd :: buf :: count :: rest ->
    absent (a_text buf) -> a_name buf = Some (T "buf") -> truthy (a_type buf) = true -> a_value fd < 3 -> a_value buf <> 0 ->
    v_bytes v (a_value buf) (Z.min (a_value count) (o_string_max_length opts)) = Ok data ->
    getText f buf = Ok (formatPointer p opts (if o_string_max_length opts <? a_value count then repr_fs data ++ T "..." else repr_fs data) (a_value buf)).
  Proof.
    intros Hf Hargs Hx Hn Ht Hfd Hv Hd. unfold ArgModel.getText, getText_. replace (truthy (a_text buf)) with false by (destruct Hx as [-> | ->]; reflexivity).
    unfold ArgModel.createText, createText_. rewrite Hn, Ht, Hf. change (truthy (Some (T "buf"))) with true. cbn [negb orb get].
    assert (dget text_eqb (T "write") (SYSCALL_ARG_DICT p) = None) as -> by (unfold SYSCALL_ARG_DICT; destruct (p_os p); reflexivity).
    change (argument_callback p ns opts v (T "write") (T "buf")) with (@None (func -> Z -> res (option text))). cbv iota.
    change (text_eqb (T "write") (T "execve")) with false. change (text_eqb (T "write") (T "socketcall")) with false. change (text_eqb (T "write") (T "write")) with true. change (text_eqb (T "buf") (T "buf")) with true. cbn [andb].
    rewrite Hargs. unfold nth_arg. cbn [nth_error bind]. replace (a_value fd <? 3) with true by (symmetry; apply Z.ltb_lt; exact Hfd).
    unfold readString. replace (a_value buf =? 0) with false by (symmetry; now apply Z.eqb_neq). cbn [negb]. rewrite Hd. reflexivity.
  Qed.
  Lemma write_other f fd buf count rest : f_name f = T "write" -> f_args f = fd :: buf :: count :: rest ->
    absent (a_text buf) -> a_name buf = Some (T "buf") -> a_type buf = Some (T "const char *") -> 3 <= a_value fd -> a_value buf <> 0 ->
    getText f buf = Ok (formatAddress p (a_value buf)).
  Proof.
    intros Hf Hargs Hx Hn Ht Hfd Hv. unfold ArgModel.getText, getText_. replace (truthy (a_text buf)) with false by (destruct Hx as [-> | ->]; reflexivity).
    unfold ArgModel.createText, createText_. rewrite Hn, Ht, Hf. change (truthy (Some (T "buf"))) with true. change (truthy (Some (T "const char *"))) with true. cbn [negb orb get].
    assert (dget text_eqb (T "write") (SYSCALL_ARG_DICT p) = None) as -> by (unfold SYSCALL_ARG_DICT; destruct (p_os p); reflexivity).
    change (argument_callback p ns opts v (T "write") (T "buf")) with (@None (func -> Z -> res (option text))). cbv iota.
    change (text_eqb (T "write") (T "execve")) with false. change (text_eqb (T "write") (T "socketcall")) with false. change (text_eqb (T "write") (T "write")) with true. change (text_eqb (T "buf") (T "buf")) with true. cbn [andb].
    rewrite Hargs. unfold nth_arg. cbn [nth_error bind]. replace (a_value fd <? 3) with false by (symmetry; apply Z.ltb_ge; exact Hfd).
    change (text_eqb (T "buf") (T "signum")) with false. cbn [bind].
    change (starts_with (T "const ") (T "const char *")) with true. cbv iota. change (skipn 6 (T "const char *")) with (T "char *").
    change (existsb (text_eqb (T "buf")) FILENAME_ARGUMENTS) with false. cbn [andb]. unfold createText_type. change (ends_with (T "*") (T "char *")) with true. cbv iota.
    change (strip (removelast (T "char *"))) with (T "char").
    assert (formatValuePointer p ns opts v f (a_value buf) (T "char") = Ok None) as E; [|rewrite E; reflexivity].
    unfold formatValuePointer. replace (a_value buf =? 0) with false by (symmetry; now apply Z.eqb_neq).
    change (starts_with (T "struct ") (T "char")) with false. cbv iota. change (text_eqb (T "char") (T "sockaddr")) with false. change (text_eqb (T "char") (T "int")) with false.
    assert (dget text_eqb (T "char") (KNOWN_STRUCTS p) = None) as -> by (unfold KNOWN_STRUCTS; destruct (running_linux p); reflexivity).
    change (text_eqb (T "char") (T "fd_set")) with false. change (text_eqb (T "char") (T "sigset_t")) with false. rewrite !andb_false_r. reflexivity.
  Qed.

  (** Structures of two longs *)
  Lemma to_signed_spec big bs : bs <> [] -> signed_of (8 * zlen bs) (host_value big bs) (to_signed (zlen bs) (host_value big bs)).
  Proof.
    intros Hb. pose proof (host_value_range big bs) as Hr. assert (0 < zlen bs) by (destruct bs; [congruence|rewrite zlen_cons; pose proof (zlen_nonneg bs); lia]).
    replace 256 with (2 ^ 8) in Hr by reflexivity. rewrite <- Z.pow_mul_r in Hr by lia. set (x := host_value big bs) in *. set (n := 8 * zlen bs) in *.
    assert (2 ^ n = 2 * 2 ^ (n - 1)) as Hp by (rewrite <- Z.pow_succ_r by lia; f_equal; lia).
    unfold to_signed. fold n. destruct (2 ^ (n - 1) <=? x) eqn:E; zb; split; try lia; [exists 1|exists 0]; lia.
  Qed.
  Lemma two_longs a name n1 n2 w1 w2 : ~ In name [T "sockaddr_in"; T "sockaddr_in6"] -> zlen w1 = word_size p -> zlen w2 = word_size p -> memory_at v a (w1 ++ w2) ->
    exists x1 x2, signed_of (wbits p) (host_value (p_bigendian p) w1) x1 /\ signed_of (wbits p) (host_value (p_bigendian p) w2) x2 /\
      readStruct p opts v a name [(n1, CInt true (word_size p)); (n2, CInt true (word_size p))] =
        Ok (formatPointer p opts (T "<" ++ name ++ T " " ++ n1 ++ T "=" ++ str_int x1 ++ T ", " ++ n2 ++ T "=" ++ str_int x2 ++ T ">") a).
  Proof.
    intros Hname H1 H2 Hm. exists (to_signed (zlen w1) (host_value (p_bigendian p) w1)), (to_signed (zlen w2) (host_value (p_bigendian p) w2)).
    assert (wbits p = 8 * word_size p) as Hwb by (unfold wbits, word_size; destruct (p_64bits p); reflexivity).
    assert (0 < word_size p) as HW by (unfold word_size; destruct (p_64bits p); lia).
    split; [rewrite Hwb, <- H1 at 1; apply to_signed_spec; intros ->; rewrite zlen_nil in H1; lia|].
    split; [rewrite Hwb, <- H2 at 1; apply to_signed_spec; intros ->; rewrite zlen_nil in H2; lia|].
    unfold readStruct. set (s := [(n1, CInt true (word_size p)); (n2, CInt true (word_size p))]).
    assert (struct_size s = 2 * word_size p) as -> by (unfold s, struct_size, struct_end, struct_align, round_up, word_size; destruct (p_64bits p); reflexivity).
    rewrite (read_raw_at a _ (2 * word_size p) Hm) by (rewrite zlen_app; lia). cbn [bind].
    rewrite firstn_all2 by (rewrite app_length; unfold zlen in *; lia).
    assert (struct_layout 0 s = [(n1, (0, CInt true (word_size p))); (n2, (word_size p, CInt true (word_size p)))]) as -> by (unfold s, struct_layout, round_up, word_size; destruct (p_64bits p); reflexivity).
    cbn [mapM ct_size].
    assert (slice 0 (0 + word_size p) (w1 ++ w2) = w1) as ->.
    { unfold slice. rewrite Z.sub_0_r, Z.add_0_l. change (Z.to_nat 0) with 0%nat. cbn [skipn]. rewrite firstn_app. unfold zlen in *. replace (Z.to_nat (word_size p)) with (List.length w1) by lia. rewrite firstn_all, Nat.sub_diag. cbn [firstn]. apply app_nil_r. }
    assert (slice (word_size p) (word_size p + word_size p) (w1 ++ w2) = w2) as ->.
    { unfold slice. unfold zlen in *. replace (word_size p + word_size p - word_size p) with (word_size p) by lia. rewrite skipn_app. replace (Z.to_nat (word_size p)) with (List.length w1) at 2 3 by lia.
      rewrite skipn_all, Nat.sub_diag. cbn [skipn app]. apply firstn_all2. lia. }
    unfold get_cvalue.
    assert (forall big w, zlen w = word_size p -> unpack_uint big (Z.to_nat (word_size p)) w = Ok (host_value big w)) as Hun.
    { intros big w Hw. unfold zlen in Hw. replace (Z.to_nat (word_size p)) with (List.length w) by lia. apply unpack_host. }
    rewrite !Hun by assumption. cbn [bind].
    unfold format_field, formatStructValue.
    assert (text_eqb name (T "sockaddr_in") = false) as -> by (apply text_eqb_neq; intros E; apply Hname; rewrite E; now left).
    assert (text_eqb name (T "sockaddr_in6") = false) as -> by (apply text_eqb_neq; intros E; apply Hname; rewrite E; right; now left).
    cbn [andb orb repr_cvalue bind join]. rewrite H1, H2. rewrite <- !app_assoc. reflexivity.
  Qed.
  Lemma formatPointer_nonempty t a : t <> [] -> formatPointer p opts t a <> [].
  Proof. unfold formatPointer. destruct t; [congruence|]. destruct (o_write_address opts); discriminate. Qed.
  Lemma two_longs_arg f a base n1 n2 w1 w2 : running_linux p = true -> absent (a_text a) -> untreated f a ->
    In (base, (n1, n2)) [(T "timeval", (T "tv_sec", T "tv_usec")); (T "timespec", (T "tv_sec", T "tv_nsec")); (T "rlimit", (T "rlim_cur", T "rlim_max"))] ->
    pointer_to a (T "struct " ++ base) -> a_value a <> 0 ->
    zlen w1 = word_size p -> zlen w2 = word_size p -> memory_at v (a_value a) (w1 ++ w2) ->
    exists x1 x2, signed_of (wbits p) (host_value (p_bigendian p) w1) x1 /\ signed_of (wbits p) (host_value (p_bigendian p) w2) x2 /\
      getText f a = Ok (formatPointer p opts (T "<" ++ base ++ T " " ++ n1 ++ T "=" ++ str_int x1 ++ T ", " ++ n2 ++ T "=" ++ str_int x2 ++ T ">") (a_value a)).
  Proof.
    intros Hl Hx Hu Hin Hp Hv H1 H2 Hm.
    destruct (two_longs (a_value a) base n1 n2 w1 w2) as (x1 & x2 & Hs1 & Hs2 & E); auto.
    { cbn [In] in *. intros Hb. destruct Hin as [Hin|[Hin|[Hin|[]]]]; injection Hin as <- _ _; destruct Hb as [Hb|[Hb|[]]]; discriminate Hb. }
    exists x1, x2. split; [exact Hs1|]. split; [exact Hs2|].
    destruct (pointer_text f a (T "struct " ++ base) Hx Hp Hu) as [H _]; [left; discriminate|]. apply H; [|apply formatPointer_nonempty; discriminate].
    unfold formatValuePointer. replace (a_value a =? 0) with false by (symmetry; now apply Z.eqb_neq).
    assert (starts_with (T "struct ") (T "struct " ++ base) = true) as -> by (apply starts_with_spec; now exists base). change (skipn 7 (T "struct " ++ base)) with base.
    unfold KNOWN_STRUCTS. rewrite Hl.
    cbn [In] in Hin. destruct Hin as [Hin|[Hin|[Hin|[]]]]; injection Hin as <- <- <-.
    - change (text_eqb (T "timeval") (T "sockaddr")) with false. change (text_eqb (T "timeval") (T "int")) with false. cbv iota.
      change (dget text_eqb (T "timeval") (linux_structs p)) with (Some [(T "tv_sec", CInt true (word_size p)); (T "tv_usec", CInt true (word_size p))]). cbv iota. exact (f_equal (fun r => do t <- r; Ok (Some t)) E).
    - change (text_eqb (T "timespec") (T "sockaddr")) with false. change (text_eqb (T "timespec") (T "int")) with false. cbv iota.
      change (dget text_eqb (T "timespec") (linux_structs p)) with (Some [(T "tv_sec", CInt true (word_size p)); (T "tv_nsec", CInt true (word_size p))]). cbv iota. exact (f_equal (fun r => do t <- r; Ok (Some t)) E).
    - change (text_eqb (T "rlimit") (T "sockaddr")) with false. change (text_eqb (T "rlimit") (T "int")) with false. cbv iota.
      change (dget text_eqb (T "rlimit") (linux_structs p)) with (Some [(T "rlim_cur", CInt true (word_size p)); (T "rlim_max", CInt true (word_size p))]). cbv iota. exact (f_equal (fun r => do t <- r; Ok (Some t)) E).
  Qed.
End Facts.
