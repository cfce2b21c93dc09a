(** * ExactProofs4: the event message on 64-bit big-endian processors, limits. *)
From Coq Require Import ZArith List Ascii String Bool Lia.
From Verif Require Import PyBase PyFacts Platform IntModel IntSpec IntProofs CallModel CallSpec CallProofs SigModel TabModel TabSpec ArgModel ArgSpec ArgProofs ArgProofs2 ArgProofs3.
Import ListNotations.
Open Scope Z_scope.

(** ** C65 *)
Lemma eventmsg_exact p pid : 0 <= pid < 2 ^ 31 ->
  (p_bigendian p = true -> p_64bits p = true -> geteventmsg_value p pid = Ok 0) /\
  (geteventmsg_value p pid = Ok pid <-> p_bigendian p = false \/ p_64bits p = false \/ pid = 0).
Proof.
  intros Hr. assert (p_bigendian p = true -> p_64bits p = true -> geteventmsg_value p pid = Ok 0) as H.
  { intros Hb H6. unfold geteventmsg_value, word2bytes, word_bytes, word_size. rewrite H6, Hb. change (Z.to_nat 8) with 8%nat. rewrite pack_ok by (cbn; lia). cbn [bind].
    assert (pid / 256 / 256 / 256 / 256 = 0) as E by (rewrite !Z.div_div by lia; apply Z.div_small; lia).
    cbn [le_bytes]. rewrite E. reflexivity. }
  split; [exact H|]. split.
  - intros E. destruct (p_bigendian p); [|now left]. destruct (p_64bits p); [|now right; left]. right; right. rewrite (H eq_refl eq_refl) in E. congruence.
  - intros [Hb|[H6| ->]]; [apply geteventmsg_le; auto|apply geteventmsg_le; auto|].
    destruct (p_bigendian p) eqn:Hb; [|apply geteventmsg_le; auto]. destruct (p_64bits p) eqn:H6; [|apply geteventmsg_le; auto; lia]. now apply H.
Qed.

(** ** C70 *)
Lemma signed_same n v x : 0 < n -> 0 <= v < 2 ^ n -> signed_of n v x -> (x = v <-> v < 2 ^ (n - 1)) /\ (x <> v -> x = v - 2 ^ n).
Proof.
  intros Hn Hv (Hx & k & E). replace (2 ^ n) with (2 * 2 ^ (n - 1)) in * by (rewrite <- Z.pow_succ_r by lia; f_equal; lia). set (h := 2 ^ (n - 1)) in *.
  assert (k = 0 \/ k = 1) as [-> | ->] by nia; lia.
Qed.
Lemma value_range big w : 0 <= host_value big w < 2 ^ (8 * zlen w).
Proof.
  assert (forall s, 0 <= le_value s < 2 ^ (8 * zlen s)) as H.
  { induction s as [|b s IH]; [vm_compute; split; [discriminate|reflexivity]|]. cbn [le_value]. pose proof (b2z_range b). rewrite zlen_cons. replace (8 * (1 + zlen s)) with (8 * zlen s + 8) by ring. pose proof (zlen_nonneg s). rewrite Z.pow_add_r by lia. change (2 ^ 8) with 256. nia. }
  unfold host_value. destruct big; [|rewrite be_rev; apply H]. rewrite <- (rev_involutive w) at 1 2. rewrite be_rev. specialize (H (rev w)). unfold zlen in *. now rewrite rev_length in H.
Qed.
Lemma limit_exact p ns repr_fs opts v f a w1 w2 : running_linux p = true -> absent (a_text a) -> untreated f a ->
  pointer_to a (T "struct rlimit") -> a_value a <> 0 ->
  zlen w1 = word_size p -> zlen w2 = word_size p -> memory_at v (a_value a) (w1 ++ w2) ->
  exists x1 x2, getText p ns repr_fs opts v f a = Ok (formatPointer p opts (T "<rlimit rlim_cur=" ++ str_int x1 ++ T ", rlim_max=" ++ str_int x2 ++ T ">") (a_value a)) /\
    forall w x, In (w, x) [(w1, x1); (w2, x2)] -> let limit := host_value (p_bigendian p) w in (x = limit <-> limit < 2 ^ (wbits p - 1)) /\ (x <> limit -> x = limit - 2 ^ wbits p).
Proof.
  intros Hl Hx Hu Hp Ha H1 H2 Hm. destruct (two_longs_arg p ns repr_fs opts v f a (T "rlimit") (T "rlim_cur") (T "rlim_max") w1 w2 Hl Hx Hu) as (x1 & x2 & S1 & S2 & E); auto; [cbn; auto|].
  exists x1, x2. split; [exact E|]. assert (wbits p = 8 * word_size p) as Hwb by (unfold wbits, word_size; destruct (p_64bits p); reflexivity).
  assert (0 < wbits p) as HW by (rewrite Hwb; unfold word_size; destruct (p_64bits p); reflexivity).
  intros w x [[= <- <-]|[[= <- <-]|[]]]; cbv zeta; apply signed_same; auto; rewrite Hwb; [rewrite <- H1|rewrite <- H2]; apply value_range.
Qed.

(** ** C41 *)
Lemma ub2 b0 b1 : unpack_uint true 2 [b0; b1] = Ok (host_value true [b0; b1]).
Proof. exact (unpack_host true [b0; b1]). Qed.
Lemma ub4 b0 b1 b2 b3 : unpack_uint true 4 [b0; b1; b2; b3] = Ok (host_value true [b0; b1; b2; b3]).
Proof. exact (unpack_host true [b0; b1; b2; b3]). Qed.
Lemma inet_big p opts v a f0 f1 p0 p1 a0 a1 a2 a3 : running_bsd p = false -> p_bigendian p = true -> host_value true [f0; f1] = 2 ->
  memory_at v a [f0; f1; p0; p1; a0; a1; a2; a3] ->
  formatSockaddr p opts v a = Ok (formatPointer p opts (T "<sockaddr_in sin_family=2, sin_port=" ++ str_int (big_endian_value [p1; p0]) ++
    T ", sin_addr=" ++ dotted [a3; a2; a1; a0] ++ T ">") a).
Proof.
    intros Hb He Hf Hm. unfold formatSockaddr, sockaddr, sa_family_t. rewrite Hb, He.
    change (struct_size [(T "family", CInt false 2)]) with 2. rewrite (read_raw_at v a _ 2 Hm) by (unfold zlen; cbn; lia). cbn [bind].
    change (dget text_eqb (T "family") (struct_layout 0 [(T "family", CInt false 2)])) with (Some (0, CInt false 2)).
    cbn [ct_size]. change (slice 0 (0 + 2) (firstn (Z.to_nat 2) [f0; f1; p0; p1; a0; a1; a2; a3])) with [f0; f1]. unfold get_cvalue at 1.
    change (Z.to_nat 2) with 2%nat. rewrite ub2. cbn [bind]. rewrite Hf. change (2 =? AF_INET) with true. cbv iota.
    unfold readStruct, sockaddr_in, sa_family_t. rewrite Hb, He.
    change (struct_size [(T "sin_family", CInt false 2); (T "sin_port", CInt false 2); (T "sin_addr", CInAddr)]) with 8.
    rewrite (read_raw_at v a _ 8 Hm) by (unfold zlen; cbn; lia). cbn [bind].
    change (struct_layout 0 [(T "sin_family", CInt false 2); (T "sin_port", CInt false 2); (T "sin_addr", CInAddr)]) with
      [(T "sin_family", (0, CInt false 2)); (T "sin_port", (2, CInt false 2)); (T "sin_addr", (4, CInAddr))].
    cbn [mapM ct_size]. change (firstn (Z.to_nat 8) [f0; f1; p0; p1; a0; a1; a2; a3]) with [f0; f1; p0; p1; a0; a1; a2; a3].
    change (slice 0 (0 + 2) [f0; f1; p0; p1; a0; a1; a2; a3]) with [f0; f1].
    change (slice 2 (2 + 2) [f0; f1; p0; p1; a0; a1; a2; a3]) with [p0; p1].
    change (slice 4 (4 + 4) [f0; f1; p0; p1; a0; a1; a2; a3]) with [a0; a1; a2; a3].
    unfold get_cvalue. change (Z.to_nat 2) with 2%nat. rewrite !ub2, ub4. cbn [bind]. rewrite Hf.
    unfold format_field, formatStructValue.
    change (text_eqb (T "sockaddr_in") (T "sockaddr_in")) with true. change (text_eqb (T "sockaddr_in") (T "sockaddr_in6")) with false.
    change (text_eqb (T "sin_family") (T "sin_port")) with false. change (text_eqb (T "sin_port") (T "sin_port")) with true. change (text_eqb (T "sin_addr") (T "sin_port")) with false.
    cbn [andb orb]. change (host_value true [p0; p1]) with (host_value false [p1; p0]). change (host_value true [a0; a1; a2; a3]) with (host_value false [a3; a2; a1; a0]). rewrite ntoh_ushort_bytes. cbn [bind repr_cvalue]. rewrite ip_spec. cbn [bind].
    unfold join. do 2 f_equal. rewrite <- !app_assoc. reflexivity.
Qed.
Lemma ipv4_big p ns repr_fs opts v f a f0 f1 p0 p1 a0 a1 a2 a3 : running_linux p = true -> p_bigendian p = true ->
  absent (a_text a) -> pointer_to a (T "struct sockaddr") -> untreated f a -> a_value a <> 0 ->
  host_value true [f0; f1] = 2 -> memory_at v (a_value a) [f0; f1; p0; p1; a0; a1; a2; a3] ->
  getText p ns repr_fs opts v f a = Ok (formatPointer p opts (T "<sockaddr_in sin_family=2, sin_port=" ++ str_int (big_endian_value [p1; p0]) ++
    T ", sin_addr=" ++ dotted [a3; a2; a1; a0] ++ T ">") (a_value a)).
Proof.
  intros Hl He Hx Hp Hu Hv Hf Hm. apply sockaddr_text; auto; [discriminate|]. apply (inet_big p opts v (a_value a) f0 f1); auto. unfold running_bsd. now rewrite Hl.
Qed.
