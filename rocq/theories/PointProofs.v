(** * PointProofs: lemmas about what pointer arguments point to. *)
From Coq Require Import ZArith List Ascii String Bool Lia.
From Verif Require Import PyBase PyFacts Platform IntModel IntSpec IntProofs SigModel TabModel TabSpec MapModel ArgModel ArgSpec ArgProofs ArgProofs2 ArgProofs3 XrayModel XraySpec XrayProofs
  PointSpec.
Import ListNotations.
Open Scope Z_scope.

(** ** Literals *)
Lemma written_char q c : q = "'"%char \/ q = z2b 34 -> forall s t, written q s t -> written q (c :: s) (repr_char q c ++ t).
Proof.
  intros Hq s t H.
  assert (Hc : (Ascii.eqb c q || Ascii.eqb c "\"%char) = true /\ repr_char q c = ["\"%char; c] \/
    (c = z2b 9 /\ repr_char q c = T "\t" \/ c = z2b 10 /\ repr_char q c = T "\n" \/ c = z2b 13 /\ repr_char q c = T "\r") \/
    repr_char q c = "\"%char :: "x"%char :: hexdigit false (b2z c / 16) :: [hexdigit false (b2z c mod 16)] \/
    repr_char q c = [c] /\ c <> q /\ c <> "\"%char /\ ~ line_end c /\ b2z c < 128).
  { unfold line_end. destruct Hq as [->| ->]; destruct c as [[] [] [] [] [] [] [] []]; vm_compute;
      first [left; split; reflexivity|right; left; left; split; reflexivity|right; left; right; left; split; reflexivity|right; left; right; right; split; reflexivity|right; right; left; reflexivity|
        right; right; right; split; [reflexivity|]; split; [discriminate|]; split; [discriminate|]; split; [intuition discriminate|reflexivity]]. }
  destruct Hc as [[E ->]|[[[-> ->]|[[-> ->]|[-> ->]]]|[->|(-> & H1 & H2 & H3 & H4)]]].
  - cbn [app]. replace c with (z2b (b2z c)) at 1 by apply z2b_b2z. apply written_escape; [|exact H].
    apply orb_prop in E as [E|E]; apply Ascii.eqb_eq in E; subst c; [destruct Hq as [->| ->]|]; unfold escapes; cbn [In b2z]; vm_compute; tauto.
  - change (written q (z2b 9 :: s) ("\"%char :: "t"%char :: t)). apply written_escape; [vm_compute; tauto|exact H].
  - change (written q (z2b 10 :: s) ("\"%char :: "n"%char :: t)). apply written_escape; [vm_compute; tauto|exact H].
  - change (written q (z2b 13 :: s) ("\"%char :: "r"%char :: t)). apply written_escape; [vm_compute; tauto|exact H].
  - cbn [app]. now apply written_hex.
  - cbn [app]. now apply written_itself.
Qed.
Lemma repr_literal s : bytes_literal s (repr_bytes s).
Proof.
  unfold repr_bytes, repr_ascii. cbv zeta. set (q := quote_of s). assert (q = "'"%char \/ q = z2b 34) as Hq by (unfold q, quote_of; destruct (_ && _); auto).
  exists q, (List.concat (map (repr_char q) s)). split; [destruct Hq as [->| ->]; auto|]. split; [|reflexivity].
  clearbody q. induction s as [|c s IH]; [constructor|]. cbn [map List.concat]. now apply written_char.
Qed.
Lemma until_nul_spec bs : c_string bs (until_nul bs).
Proof.
  induction bs as [|c bs ([E|(rest & E)] & IH)]; cbn [until_nul].
  - split; [now left|intros []].
  - destruct (Z.eqb_spec (b2z c) 0) as [Hc|Hc].
    + split; [right; exists bs|intros []]. cbn [app]. f_equal. rewrite <- Hc. symmetry. apply z2b_b2z.
    + split; [left; congruence|]. intros [H|H]; [|now apply IH]. subst c. now apply Hc.
  - destruct (Z.eqb_spec (b2z c) 0) as [Hc|Hc].
    + split; [right; exists bs|intros []]. cbn [app]. f_equal. rewrite <- Hc. symmetry. apply z2b_b2z.
    + split; [right; exists rest; cbn [app]; congruence|]. intros [H|H]; [|now apply IH]. subst c. now apply Hc.
Qed.

(** ** Structures *)
Section Read.
  Context (p : platform) (ns : namespace) (repr_fs : list byte -> text) (opts : options) (v : view).
  Lemma slice_len a n (l : list byte) : 0 <= a -> 0 <= n -> a + n <= zlen l -> zlen (slice a (a + n) l) = n.
  Proof. intros Ha Hn Hl. unfold slice, zlen in *. rewrite firstn_length, skipn_length. lia. Qed.
  Lemma member_text sname name c bs : plain_member (name, c) -> zlen bs = ct_size c -> ~ In sname [T "sockaddr_in"; T "sockaddr_in6"] ->
    exists t, (do x <- get_cvalue (p_bigendian p) c bs; format_field sname name x) = Ok (name ++ T "=" ++ t) /\ member_shown (p_bigendian p) c bs t.
  Proof.
    intros Hm Hl Hs. unfold plain_member in Hm. cbn [snd] in Hm.
    assert (forall x, format_field sname name x = do t <- repr_cvalue x; Ok (name ++ T "=" ++ t)) as F.
    { intros x. unfold format_field, formatStructValue.
      assert (text_eqb sname (T "sockaddr_in") = false) as -> by (apply text_eqb_neq; intros E; apply Hs; rewrite E; now left).
      assert (text_eqb sname (T "sockaddr_in6") = false) as -> by (apply text_eqb_neq; intros E; apply Hs; rewrite E; right; now left). reflexivity. }
    destruct c as [signed n| |n| |]; [| | |destruct Hm|destruct Hm]; cbn [get_cvalue member_shown ct_size] in *.
    - assert (0 < n) as Hn by (cbn [In] in Hm; lia).
      assert (unpack_uint (p_bigendian p) (Z.to_nat n) bs = Ok (host_value (p_bigendian p) bs)) as ->.
      { replace (Z.to_nat n) with (List.length bs) by (unfold zlen in Hl; lia). apply unpack_host. }
      cbn [bind]. rewrite F. cbn [repr_cvalue bind]. eexists. split; [reflexivity|]. destruct signed; [|reflexivity].
      eexists. split; [|reflexivity]. rewrite <- Hl. apply to_signed_spec. intros ->. rewrite zlen_nil in Hl. lia.
    - cbn [bind]. rewrite F. cbn [repr_cvalue bind]. eexists. split; [reflexivity|apply repr_literal].
    - cbn [bind]. rewrite F. cbn [repr_cvalue bind]. eexists. split; [reflexivity|]. exists (until_nul bs). split; [apply until_nul_spec|apply repr_literal].
  Qed.
  Lemma round_up_le off n : 0 < n -> off <= round_up off n.
  Proof. intros H. unfold round_up. pose proof (Z.mod_pos_bound (off + n - 1) n H). pose proof (Z.div_mod (off + n - 1) n ltac:(lia)). lia. Qed.
  Lemma member_sizes f : plain_member f -> 0 < ct_align (snd f) /\ 0 < ct_size (snd f).
  Proof. unfold plain_member. destruct (snd f) as [sg n| |n| |]; cbn [ct_align ct_size In]; lia. Qed.
  Lemma end_le s : Forall plain_member s -> forall off, off <= struct_end off s.
  Proof.
    induction 1 as [|f s Hf Hs IH]; intros off; cbn [struct_end]; [lia|]. destruct f as [name c]. destruct (member_sizes _ Hf). cbn [snd] in *.
    pose proof (round_up_le off (ct_align c) ltac:(lia)). specialize (IH (round_up off (ct_align c) + ct_size c)). lia.
  Qed.
  Lemma align_pos s : 1 <= struct_align s.
  Proof. unfold struct_align. induction s as [|f s IH]; cbn [fold_right]; lia. Qed.
  Lemma size_le s : struct_end 0 s <= struct_size s.
  Proof. unfold struct_size. apply round_up_le. pose proof (align_pos s). lia. Qed.
  Lemma members sname s data : ~ In sname [T "sockaddr_in"; T "sockaddr_in6"] -> Forall plain_member s -> forall off, 0 <= off -> struct_end off s <= zlen data ->
    exists texts, mapM (fun field => let '(name, (off, c)) := field in do x <- get_cvalue (p_bigendian p) c (slice off (off + ct_size c) data); format_field sname name x) (struct_layout off s) =
        Ok (map (fun nt => fst nt ++ T "=" ++ snd nt) (combine (map fst s) texts)) /\
      Forall2 (fun field t => member_shown (p_bigendian p) (snd (snd field)) (slice (fst (snd field)) (fst (snd field) + ct_size (snd (snd field))) data) t) (struct_layout off s) texts.
  Proof.
    intros Hn Hs. induction Hs as [|f s Hf Hs IH]; intros off Hoff Hend.
    - exists []. split; [reflexivity|constructor].
    - destruct f as [name c]. destruct (member_sizes _ Hf) as [Ha Hc]. cbn [snd struct_end struct_layout] in *. pose proof (round_up_le off (ct_align c) Ha). set (o := round_up off (ct_align c)) in *.
      pose proof (end_le s Hs (o + ct_size c)).
      destruct (member_text sname name c (slice o (o + ct_size c) data) Hf) as (t & E & Ht); [apply slice_len; lia|exact Hn|].
      destruct (IH (o + ct_size c)) as (texts & E' & Ht'); [lia|exact Hend|]. exists (t :: texts). split.
      + cbn [mapM]. rewrite E. cbn [bind]. rewrite E'. reflexivity.
      + constructor; [exact Ht|exact Ht'].
  Qed.
  Lemma struct_text a sname s data : ~ In sname [T "sockaddr_in"; T "sockaddr_in6"] -> Forall plain_member s -> memory_at v a data -> zlen data = struct_size s ->
    exists texts, readStruct p opts v a sname s =
        Ok (formatPointer p opts (T "<" ++ sname ++ T " " ++ join (T ", ") (map (fun nt => fst nt ++ T "=" ++ snd nt) (combine (map fst s) texts)) ++ T ">") a) /\
      Forall2 (fun field t => member_shown (p_bigendian p) (snd (snd field)) (slice (fst (snd field)) (fst (snd field) + ct_size (snd (snd field))) data) t) (struct_layout 0 s) texts.
  Proof.
    intros Hn Hs Hm Hl. destruct (members sname s data Hn Hs 0) as (texts & E & Ht); [lia|rewrite Hl; apply size_le|].
    exists texts. split; [|exact Ht]. unfold readStruct. rewrite (read_raw_at v a data _ Hm) by (rewrite Hl; pose proof (size_le s); pose proof (end_le s Hs 0); lia). cbn [bind].
    rewrite firstn_all2 by (unfold zlen in Hl; lia). rewrite E. reflexivity.
  Qed.
  Lemma known_plain name s : In (name, s) (KNOWN_STRUCTS p) -> Forall plain_member s.
  Proof.
    unfold KNOWN_STRUCTS. destruct (running_linux p); [|intros []]. unfold linux_structs, word_size, plain_member.
    intros H. repeat (destruct H as [H|H]; [injection H as _ <-; repeat (apply Forall_cons; [cbn [snd In]; destruct (p_64bits p); lia|]); apply Forall_nil|]). destruct H.
  Qed.
  Lemma known_get name s : In (name, s) (KNOWN_STRUCTS p) -> dget text_eqb name (KNOWN_STRUCTS p) = Some s /\ name <> T "sockaddr" /\ name <> T "int" /\ ~ In name [T "sockaddr_in"; T "sockaddr_in6"] /\
    strip (T "struct " ++ name) = T "struct " ++ name.
  Proof.
    unfold KNOWN_STRUCTS. destruct (running_linux p); [|intros []]. unfold linux_structs.
    intros H. repeat (destruct H as [H|H]; [injection H as <- <-; split; [reflexivity|]; split; [discriminate|]; split; [discriminate|]; split; [cbn [In]; intuition discriminate|reflexivity]|]). destruct H.
  Qed.
  Lemma struct_arg f a name s data : In (name, s) (KNOWN_STRUCTS p) -> absent (a_text a) -> untreated f a ->
    (a_type a = Some (T "struct " ++ name ++ T " *") \/ a_type a = Some (T "const struct " ++ name ++ T " *")) -> a_value a <> 0 ->
    memory_at v (a_value a) data -> zlen data = struct_size s ->
    exists texts, getText p ns repr_fs opts v f a =
        Ok (formatPointer p opts (T "<" ++ name ++ T " " ++ join (T ", ") (map (fun nt => fst nt ++ T "=" ++ snd nt) (combine (map fst s) texts)) ++ T ">") (a_value a)) /\
      Forall2 (fun field t => member_shown (p_bigendian p) (snd (snd field)) (slice (fst (snd field)) (fst (snd field) + ct_size (snd (snd field))) data) t) (struct_layout 0 s) texts.
  Proof.
    intros Hk Hx Hu Ht Hv Hm Hl. destruct (known_get _ _ Hk) as (G & N1 & N2 & N3 & St).
    destruct (struct_text (a_value a) name s data N3 (known_plain _ _ Hk) Hm Hl) as (texts & E & F). exists texts. split; [|exact F].
    assert (pointer_to a (T "struct " ++ name)) as Hp.
    { split; [discriminate|]. split; [exact St|]. split; [reflexivity|]. rewrite <- !app_assoc. exact Ht. }
    destruct (pointer_text p ns repr_fs opts v f a _ Hx Hp Hu) as [H _]; [left; discriminate|]. apply H; [|apply formatPointer_nonempty; discriminate].
    unfold formatValuePointer. replace (a_value a =? 0) with false by (symmetry; now apply Z.eqb_neq).
    assert (starts_with (T "struct ") (T "struct " ++ name) = true) as -> by (apply starts_with_spec; now exists name). change (skipn 7 (T "struct " ++ name)) with name.
    rewrite (proj2 (text_eqb_neq _ _) N1), (proj2 (text_eqb_neq _ _) N2), G, E. reflexivity.
  Qed.
  Lemma read_cint_at a w : memory_at v a w -> zlen w = 4 -> exists n, signed_of 32 (host_value (p_bigendian p) w) n /\ read_cint p v a = Ok n.
  Proof.
    intros Hm Hl. exists (to_signed 4 (host_value (p_bigendian p) w)). split.
    - change 32 with (8 * 4). rewrite <- Hl. apply to_signed_spec. intros ->. discriminate Hl.
    - unfold read_cint. rewrite (read_raw_at v a w 4 Hm) by lia. cbn [bind]. rewrite firstn_all2 by (unfold zlen in Hl; lia).
      replace 4%nat with (List.length w) by (unfold zlen in Hl; lia). rewrite unpack_host. reflexivity.
  Qed.
  Lemma int_arg f a w : absent (a_text a) -> pointer_to a (T "int") -> untreated f a -> a_value a <> 0 -> memory_at v (a_value a) w -> zlen w = 4 ->
    exists n, signed_of 32 (host_value (p_bigendian p) w) n /\ getText p ns repr_fs opts v f a = Ok (formatPointer p opts (T "<" ++ str_int n ++ T ">") (a_value a)).
  Proof.
    intros Hx Hp Hu Hv Hm Hl. destruct (read_cint_at _ _ Hm Hl) as (n & Hn & E). exists n. split; [exact Hn|].
    destruct (pointer_text p ns repr_fs opts v f a _ Hx Hp Hu) as [H _]; [left; discriminate|]. apply H; [|apply formatPointer_nonempty; discriminate].
    unfold formatValuePointer. replace (a_value a =? 0) with false by (symmetry; now apply Z.eqb_neq). cbn [starts_with]. change (starts_with (T "struct ") (T "int")) with false. cbv iota.
    change (text_eqb (T "int") (T "sockaddr")) with false. change (text_eqb (T "int") (T "int")) with true. cbv iota. rewrite E. reflexivity.
  Qed.
  (** setsockopt(2) *)
  Lemma optval_create f a : f_name f = T "setsockopt" -> a_name a = Some (T "optval") -> truthy (a_type a) = true -> absent (a_text a) ->
    forall r, formatOptVal p opts v f (a_value a) = Ok r ->
    getText p ns repr_fs opts v f a = Ok (match r with Some t => t | None => if ends_with (T "*") (get (a_type a)) then formatAddress p (a_value a) else str_int (a_value a) end).
  Proof.
    intros Hf Hn Ht Hx r E. unfold getText, getText_. assert (truthy (a_text a) = false) as -> by (destruct Hx as [->| ->]; reflexivity).
    unfold createText, createText_. rewrite Hf, Hn, Ht.
    assert (match dget text_eqb (T "setsockopt") (SYSCALL_ARG_DICT p) with
        | Some d => match dget text_eqb (T "optval") d with Some d => dget Z.eqb (a_value a) d | None => None end | None => None end = None) as Hd.
    { unfold SYSCALL_ARG_DICT. destruct (p_os p); reflexivity. }
    cbn [negb orb get truthy]. change (truthy (Some (T "optval"))) with true. cbn [negb orb]. rewrite Hd.
    change (argument_callback p ns opts v (T "setsockopt") (T "optval")) with (Some (formatOptVal p opts v)). cbv iota. rewrite E. destruct r; reflexivity.
  Qed.
  Lemma optval_text f a l w : f_name f = T "setsockopt" -> a_name a = Some (T "optval") -> truthy (a_type a) = true -> absent (a_text a) ->
    find_arg (T "optlen") (f_args f) = Ok l -> a_value l = 4 -> memory_at v (a_value a) w -> zlen w = 4 ->
    exists n, signed_of 32 (host_value (p_bigendian p) w) n /\ getText p ns repr_fs opts v f a = Ok (formatPointer p opts (T "<" ++ str_int n ++ T ">") (a_value a)).
  Proof.
    intros Hf Hn Ht Hx Hl H4 Hm Hw. destruct (read_cint_at _ _ Hm Hw) as (n & Hs & E). exists n. split; [exact Hs|].
    apply (optval_create f a Hf Hn Ht Hx (Some _)). unfold formatOptVal. rewrite Hl. cbn [bind]. rewrite H4. change (4 =? 4) with true. cbv iota. rewrite E. reflexivity.
  Qed.
  Lemma optval_other f a l base : f_name f = T "setsockopt" -> a_name a = Some (T "optval") -> a_type a = Some (base ++ T "*") -> absent (a_text a) ->
    find_arg (T "optlen") (f_args f) = Ok l -> a_value l <> 4 -> getText p ns repr_fs opts v f a = Ok (formatAddress p (a_value a)).
  Proof.
    intros Hf Hn Ht Hx Hl H4. assert (truthy (a_type a) = true) as Htr by (rewrite Ht; destruct base; reflexivity).
    rewrite (optval_create f a Hf Hn Htr Hx None).
    - rewrite Ht. cbn [get]. rewrite (proj2 (ends_with_spec _ _)); [reflexivity|]. now exists base.
    - unfold formatOptVal. rewrite Hl. cbn [bind]. replace (a_value l =? 4) with false by (symmetry; now apply Z.eqb_neq). reflexivity.
  Qed.
  (** Arrays *)
  Lemma last_digit n : 0 <= n -> exists ds, str_int n = ds ++ [digit_char (n mod 10)] /\ Forall (fun c => is_digit c = true) ds.
  Proof.
    intros Hn. assert (Forall (fun c => is_digit c = true) (str_int n)) as Hd.
    { unfold str_int, fmt_int. replace (n <? 0) with false by (symmetry; apply Z.ltb_ge; lia). apply digits_Forall; [lia| |exact Hn]. intros d Hd.
      assert (d = 0 \/ d = 1 \/ d = 2 \/ d = 3 \/ d = 4 \/ d = 5 \/ d = 6 \/ d = 7 \/ d = 8 \/ d = 9) by lia. intuition (subst; reflexivity). }
    assert (exists ds, str_int n = ds ++ [digit_char (n mod 10)]) as [ds E].
    { unfold str_int, fmt_int. replace (n <? 0) with false by (symmetry; apply Z.ltb_ge; lia). unfold digits. cbn [digits_aux].
      assert (forall fuel m acc, exists ds, digits_aux fuel 10 m acc = ds ++ acc) as Ha.
      { induction fuel as [|fuel IH]; intros m acc; cbn [digits_aux]; [now exists []|]. destruct (m / 10 =? 0); [now exists [digit_char (m mod 10)]|].
        destruct (IH (m / 10) (digit_char (m mod 10) :: acc)) as [ds Hds]. exists (ds ++ [digit_char (m mod 10)]). rewrite Hds, <- app_assoc. reflexivity. }
      destruct (n / 10 =? 0); [now exists []|]. apply Ha. }
    exists ds. split; [exact E|]. rewrite E in Hd. now apply Forall_app in Hd.
  Qed.
  Lemma array_type n : array_match (T "int[" ++ str_int (Z.of_nat n) ++ T "]") = Some (T "int", Z.of_nat (n mod 10)).
  Proof.
    destruct (last_digit (Z.of_nat n) ltac:(lia)) as (ds & -> & Hds).
    assert (is_digit (digit_char (Z.of_nat n mod 10)) = true /\ b2z (digit_char (Z.of_nat n mod 10)) - 48 = Z.of_nat n mod 10) as [D1 D2].
    { pose proof (Z.mod_pos_bound (Z.of_nat n) 10 ltac:(lia)) as Hb. set (d := Z.of_nat n mod 10) in *. clearbody d.
      assert (d = 0 \/ d = 1 \/ d = 2 \/ d = 3 \/ d = 4 \/ d = 5 \/ d = 6 \/ d = 7 \/ d = 8 \/ d = 9) by lia. intuition (subst; reflexivity). }
    rewrite Nat2Z.inj_mod. change (Z.of_nat 10) with 10. set (d := digit_char _) in *. set (m := Z.of_nat n mod 10) in *. clearbody d m.
    assert (forall c, is_digit c = true -> (b2z c =? 10) = false /\ Ascii.eqb c "["%char = false /\ Ascii.eqb c "]"%char = false) as Hch.
    { intros c. destruct c as [[] [] [] [] [] [] [] []]; vm_compute; intros; try discriminate; auto. }
    assert (array_match ((ds ++ [d]) ++ T "]") = None) as Hnone.
    { assert (Forall (fun c => is_digit c = true) (ds ++ [d])) as Hall by (apply Forall_app; auto). clear - Hall Hch. induction Hall as [|c l Hc Hl IH]; [reflexivity|].
      cbn [app array_match]. destruct (Hch c Hc) as (-> & -> & _). rewrite IH. reflexivity. }
    assert (last_digit_then_close ((ds ++ [d]) ++ T "]") = Some m) as Hlast.
    { clear Hnone. induction Hds as [|c l Hc Hl IH].
      - cbn. rewrite D1. now rewrite D2.
      - cbn [app last_digit_then_close]. rewrite Hc. destruct ((l ++ [d]) ++ T "]") as [|e r] eqn:Er; [discriminate IH|].
        assert (Ascii.eqb e "]"%char = false) as ->; [|exact IH]. destruct l as [|e' l]; cbn in Er; injection Er as <- _; [now apply Hch|]. inversion Hl; subst. now apply Hch. }
    change (T "int[" ++ (ds ++ [d]) ++ T "]") with ("i"%char :: "n"%char :: "t"%char :: "["%char :: ((ds ++ [d]) ++ T "]")).
    set (r := (ds ++ [d]) ++ T "]") in *. clearbody r. cbn [array_match]. rewrite Hnone, Hlast. reflexivity.
  Qed.
  Lemma array_int a data n : memory_at v a data -> zlen data = 4 * Z.of_nat n ->
    exists xs, readArray_int p opts v a (Z.of_nat n) = Ok (formatPointer p opts (T "<(" ++ join (T ", ") (map str_int xs) ++ T ")>") a) /\ List.length xs = n /\
      forall i x, nth_error xs i = Some x -> signed_of 32 (host_value (p_bigendian p) (slice (4 * Z.of_nat i) (4 * Z.of_nat i + 4) data)) x.
  Proof.
    intros Hm Hl. set (val := fun i => to_signed 4 (host_value (p_bigendian p) (slice (4 * i) (4 * i + 4) data))).
    exists (map val (zrange n)). split; [|split].
    - unfold readArray_int. rewrite (read_raw_at v a data _ Hm) by lia. cbn [bind]. rewrite firstn_all2 by (unfold zlen in Hl; lia). rewrite Nat2Z.id.
      assert (forall l, (forall i, In i l -> 0 <= i < Z.of_nat n) ->
        mapM (fun i => do x <- unpack_uint (p_bigendian p) 4 (slice (4 * i) (4 * i + 4) data); Ok (str_int (to_signed 4 x))) l = Ok (map str_int (map val l))) as H.
      { induction l as [|i l IH]; intros Hi; [reflexivity|]. cbn [mapM map]. pose proof (Hi i (or_introl eq_refl)).
        assert (unpack_uint (p_bigendian p) 4 (slice (4 * i) (4 * i + 4) data) = Ok (host_value (p_bigendian p) (slice (4 * i) (4 * i + 4) data))) as ->.
        { pose proof (slice_len (4 * i) 4 data ltac:(lia) ltac:(lia) ltac:(lia)) as Hs. replace 4%nat with (List.length (slice (4 * i) (4 * i + 4) data)) by (unfold zlen in Hs; lia). apply unpack_host. }
        cbn [bind]. rewrite IH by (intros j Hj; apply Hi; now right). reflexivity. }
      rewrite H; [reflexivity|]. intros i Hi. unfold zrange in Hi. apply in_map_iff in Hi as (k & <- & Hk). apply in_seq in Hk. lia.
    - unfold zrange. rewrite !map_length. apply seq_length.
    - intros i x Hx. unfold zrange in Hx. rewrite map_map, nth_error_map in Hx. destruct (nth_error (seq 0 n) i) as [k|] eqn:E; [|discriminate]. cbn [option_map] in Hx. injection Hx as <-.
      assert (i < n)%nat as Hi by (rewrite <- (seq_length n 0); apply nth_error_Some; congruence).
      rewrite (nth_error_nth' (seq 0 n) 0%nat) in E by (rewrite seq_length; exact Hi). rewrite seq_nth in E by exact Hi. injection E as <-. cbn [Nat.add].
      unfold val. pose proof (slice_len (4 * Z.of_nat i) 4 data ltac:(lia) ltac:(lia) ltac:(lia)) as Hs. set (w := slice (4 * Z.of_nat i) (4 * Z.of_nat i + 4) data) in *. clearbody w. change 32 with (8 * 4). rewrite <- Hs. apply to_signed_spec.
      intros ->. discriminate Hs.
  Qed.
  Lemma array_arg f a n data : absent (a_text a) -> untreated f a -> a_type a = Some (T "int[" ++ str_int (Z.of_nat n) ++ T "]") ->
    memory_at v (a_value a) data -> zlen data = 4 * Z.of_nat (n mod 10) ->
    exists xs, getText p ns repr_fs opts v f a = Ok (formatPointer p opts (T "<(" ++ join (T ", ") (map str_int xs) ++ T ")>") (a_value a)) /\ List.length xs = (n mod 10)%nat /\
      forall i x, nth_error xs i = Some x -> signed_of 32 (host_value (p_bigendian p) (slice (4 * Z.of_nat i) (4 * Z.of_nat i + 4) data)) x.
  Proof.
    intros Hx (nm & Hnm & Hne & Hsig & Hcall) Ht Hm Hl. destruct (array_int _ _ _ Hm Hl) as (xs & E & L & S). exists xs. split; [|split; [exact L|exact S]].
    destruct (getText_fallback p ns repr_fs opts v f a Hx) as [H _]. apply H. unfold createText, createText_.
    destruct (special_none p ns opts v f a nm Hnm Hne Hcall) as (H1 & H2 & H3 & H4 & H5). rewrite Hnm in *. cbn [get] in *. rewrite H1, H2, H3, H4, H5. cbn [andb bind].
    assert (truthy (Some nm) = true) as -> by (destruct nm; [congruence|reflexivity]). rewrite Ht. change (truthy (Some (T "int[" ++ str_int (Z.of_nat n) ++ T "]"))) with true. cbn [negb orb get].
    rewrite (proj2 (text_eqb_neq _ _) Hsig). change (starts_with (T "const ") (T "int[" ++ str_int (Z.of_nat n) ++ T "]")) with false. cbv iota.
    assert (text_eqb (T "int[" ++ str_int (Z.of_nat n) ++ T "]") (T "char *") = false) as -> by reflexivity. rewrite andb_false_r.
    unfold createText_type.
    assert (ends_with (T "*") (T "int[" ++ str_int (Z.of_nat n) ++ T "]") = false) as ->.
    { destruct (ends_with _ _) eqn:Ee; [|reflexivity]. apply ends_with_spec in Ee as [u Hu]. rewrite app_assoc in Hu. apply (f_equal (@rev ascii)) in Hu. rewrite !rev_app_distr in Hu. discriminate Hu. }
    rewrite array_type. change (text_eqb (T "int") (T "int")) with true. cbv iota. rewrite E. reflexivity.
  Qed.
  (** Socket addresses *)
  Lemma sockaddr_family a f0 f1 rest : running_linux p = true -> memory_at v a (f0 :: f1 :: rest) ->
    formatSockaddr p opts v a = let family := host_value (p_bigendian p) [f0; f1] in
      if family =? 2 then readStruct p opts v a (T "sockaddr_in") (sockaddr_in p)
      else if family =? 10 then readStruct p opts v a (T "sockaddr_in6") (sockaddr_in6 p)
      else if family =? 1 then readStruct p opts v a (T "sockaddr_un") (sockaddr_un p)
      else if family =? 16 then readStruct p opts v a (T "sockaddr_nl") (sockaddr_nl p)
      else Ok (formatPointer p opts (T "<sockaddr family=" ++ match dget Z.eqb family SOCKET_FAMILY with Some t => t | None => str_int family end ++ T ">") a).
  Proof.
    intros Hlin Hm. assert (running_bsd p = false) as Hb by (unfold running_bsd; rewrite Hlin; reflexivity). assert (p_os p = Linux) as Hos by (revert Hlin; unfold running_linux; destruct (p_os p); congruence).
    unfold formatSockaddr. unfold sockaddr, sa_family_t. rewrite Hb.
    change (struct_size [(T "family", CInt false 2)]) with 2. rewrite (read_raw_at v a _ 2 Hm) by (rewrite !zlen_cons; pose proof (zlen_nonneg rest); lia). cbn [bind].
    change (firstn (Z.to_nat 2) (f0 :: f1 :: rest)) with [f0; f1]. change (dget text_eqb (T "family") (struct_layout 0 [(T "family", CInt false 2)])) with (Some (0, CInt false 2)). cbv iota.
    change (slice 0 (0 + ct_size (CInt false 2)) [f0; f1]) with [f0; f1]. cbn [get_cvalue]. change (Z.to_nat 2) with (List.length [f0; f1]). rewrite unpack_host. cbn [bind].
    unfold AF_INET6. rewrite Hos, Hlin. reflexivity.
  Qed.
  Lemma sockaddr_pointer f a f0 f1 rest t : running_linux p = true -> absent (a_text a) -> pointer_to a (T "struct sockaddr") -> untreated f a -> a_value a <> 0 ->
    memory_at v (a_value a) (f0 :: f1 :: rest) -> formatSockaddr p opts v (a_value a) = Ok t -> t <> [] -> getText p ns repr_fs opts v f a = Ok t.
  Proof.
    intros Hlin Hx Hp Hu Hv Hm E Ht. destruct (pointer_text p ns repr_fs opts v f a _ Hx Hp Hu) as [H _]; [left; discriminate|]. apply H; [|exact Ht].
    unfold formatValuePointer. replace (a_value a =? 0) with false by (symmetry; now apply Z.eqb_neq).
    change (starts_with (T "struct ") (T "struct sockaddr")) with true. cbv iota. change (skipn 7 (T "struct sockaddr")) with (T "sockaddr"). change (text_eqb (T "sockaddr") (T "sockaddr")) with true. cbv iota. rewrite E. reflexivity.
  Qed.
  Lemma family_struct f a name s data n : running_linux p = true -> absent (a_text a) -> pointer_to a (T "struct sockaddr") -> untreated f a -> a_value a <> 0 ->
    In (n, (name, s)) [(1, (T "sockaddr_un", sockaddr_un p)); (16, (T "sockaddr_nl", sockaddr_nl p))] ->
    memory_at v (a_value a) data -> zlen data = struct_size s -> host_value (p_bigendian p) (firstn 2 data) = n ->
    exists texts, getText p ns repr_fs opts v f a =
        Ok (formatPointer p opts (T "<" ++ name ++ T " " ++ join (T ", ") (map (fun nt => fst nt ++ T "=" ++ snd nt) (combine (map fst s) texts)) ++ T ">") (a_value a)) /\
      Forall2 (fun field t => member_shown (p_bigendian p) (snd (snd field)) (slice (fst (snd field)) (fst (snd field) + ct_size (snd (snd field))) data) t) (struct_layout 0 s) texts.
  Proof.
    intros Hlin Hx Hp Hu Hv Hin Hm Hl Hf. assert (running_bsd p = false) as Hb by (unfold running_bsd; rewrite Hlin; reflexivity).
    assert (~ In name [T "sockaddr_in"; T "sockaddr_in6"] /\ Forall plain_member s /\ 2 <= struct_size s) as (N & P & Hsz).
    { unfold sockaddr_un, sockaddr_nl, sa_family_t in Hin. rewrite Hb in Hin. destruct Hin as [E|[E|[]]]; injection E as <- <- <-; (split; [cbn [In]; intuition discriminate|]; split; [|vm_compute; discriminate]);
        repeat (apply Forall_cons; [unfold plain_member; cbn [snd In]; lia|]); apply Forall_nil. }
    destruct (struct_text (a_value a) name s data N P Hm Hl) as (texts & E & F). exists texts. split; [|exact F].
    destruct data as [|f0 [|f1 rest]]; [rewrite zlen_nil in Hl; lia|rewrite zlen_cons, zlen_nil in Hl; lia|]. cbn [firstn] in Hf.
    apply (sockaddr_pointer f a f0 f1 rest _ Hlin Hx Hp Hu Hv Hm); [|apply formatPointer_nonempty; discriminate].
    rewrite (sockaddr_family _ _ _ _ Hlin Hm). cbv zeta. rewrite Hf. destruct Hin as [Ei|[Ei|[]]]; injection Ei as <- <- <-; exact E.
  Qed.
  Lemma family_other f a f0 f1 rest : running_linux p = true -> absent (a_text a) -> pointer_to a (T "struct sockaddr") -> untreated f a -> a_value a <> 0 ->
    memory_at v (a_value a) (f0 :: f1 :: rest) -> ~ In (host_value (p_bigendian p) [f0; f1]) [1; 2; 10; 16] ->
    (forall name, In (host_value (p_bigendian p) [f0; f1], name) SOCKET_FAMILY ->
      getText p ns repr_fs opts v f a = Ok (formatPointer p opts (T "<sockaddr family=" ++ name ++ T ">") (a_value a))) /\
    (~ In (host_value (p_bigendian p) [f0; f1]) (map fst SOCKET_FAMILY) ->
      getText p ns repr_fs opts v f a = Ok (formatPointer p opts (T "<sockaddr family=" ++ str_int (host_value (p_bigendian p) [f0; f1]) ++ T ">") (a_value a))).
  Proof.
    intros Hlin Hx Hp Hu Hv Hm Hn. pose proof (sockaddr_family _ _ _ _ Hlin Hm) as E. cbv zeta in E. set (n := host_value (p_bigendian p) [f0; f1]) in *. cbn [In] in Hn.
    assert ((n =? 1) = false /\ (n =? 2) = false /\ (n =? 10) = false /\ (n =? 16) = false) as (E1 & E2 & E3 & E4) by (repeat split; apply Z.eqb_neq; intros ->; apply Hn; tauto).
    rewrite E1, E2, E3, E4 in E. split.
    - intros name Hin. apply (sockaddr_pointer f a f0 f1 rest _ Hlin Hx Hp Hu Hv Hm); [|apply formatPointer_nonempty; discriminate]. rewrite E.
      assert (dget Z.eqb n SOCKET_FAMILY = Some name) as ->; [|reflexivity].
      revert Hin. generalize n. intros m Hin. unfold SOCKET_FAMILY in *. repeat (destruct Hin as [Hin|Hin]; [injection Hin as <- <-; reflexivity|]). destruct Hin.
    - intros Hni. apply (sockaddr_pointer f a f0 f1 rest _ Hlin Hx Hp Hu Hv Hm); [|apply formatPointer_nonempty; discriminate]. rewrite E.
      assert (dget Z.eqb n SOCKET_FAMILY = None) as ->; [|reflexivity].
      revert Hni. generalize SOCKET_FAMILY. intros fam. induction fam as [|[k x] fam IH]; [reflexivity|]. cbn [map fst In dget]. intros H. destruct (Z.eqb_spec n k); [exfalso; apply H; left; now symmetry|]. apply IH. tauto.
  Qed.
  Lemma signs name s f signed size : In (name, s) (KNOWN_STRUCTS p) -> name <> T "rlimit" -> In (f, CInt signed size) s -> (signed = true <-> In (name, f) signed_members).
  Proof.
    unfold KNOWN_STRUCTS. destruct (running_linux p); [|intros []]. intros H Hr Hf.
    set (known := fun e f : text => existsb (fun m => text_eqb (fst m) e && text_eqb (snd m) f) signed_members).
    assert (forallb (fun e => text_eqb (fst e) (T "rlimit") || forallb (fun f => match snd f with CInt sg _ => Bool.eqb sg (known (fst e) (fst f)) | _ => true end) (snd e)) (linux_structs p) = true) as Hc by reflexivity.
    rewrite forallb_forall in Hc. specialize (Hc _ H). cbn [fst snd] in Hc. rewrite (proj2 (text_eqb_neq _ _) Hr) in Hc. cbn [orb] in Hc.
    rewrite forallb_forall in Hc. specialize (Hc _ Hf). cbn [fst snd] in Hc. apply eqb_prop in Hc. rewrite Hc. unfold known. rewrite existsb_exists. split.
    - intros ([a b] & Hin & E). cbn [fst snd] in E. apply andb_prop in E as [E1 E2]. apply text_eqb_eq in E1, E2. now subst.
    - intros Hin. exists (name, f). split; [exact Hin|]. cbn [fst snd]. now rewrite !text_eqb_refl.
  Qed.
End Read.
Lemma sockaddr_unsigned p s f signed size : In s [sockaddr p; sockaddr_in p; sockaddr_in6 p; sockaddr_un p; sockaddr_nl p] -> In (f, CInt signed size) s -> signed = false.
Proof.
  intros Hs Hf.
  assert (forallb (fun s => forallb (fun f => match snd f with CInt true _ => false | _ => true end) s) [sockaddr p; sockaddr_in p; sockaddr_in6 p; sockaddr_un p; sockaddr_nl p] = true) as Hc.
  { unfold sockaddr, sockaddr_in, sockaddr_in6, sockaddr_un, sockaddr_nl, sa_family_t. destruct (running_bsd p); reflexivity. }
  rewrite forallb_forall in Hc. specialize (Hc _ Hs). rewrite forallb_forall in Hc. specialize (Hc _ Hf). cbn [snd] in Hc. now destruct signed.
Qed.
Lemma array_null p repr_fs opts v : readCStringArray p repr_fs opts v 0 = Ok (T "NULL").
Proof. reflexivity. Qed.
Lemma defaults : (forall a t, format_with default_options a t = t) /\ (forall p t a, formatPointer p default_options t a = t) /\
  o_string_max_length default_options = 300 /\ o_max_array_count default_options = 20 /\ o_replace_socketcall default_options = true /\ o_instr_pointer default_options = false.
Proof. repeat split. Qed.
