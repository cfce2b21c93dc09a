From Coq Require Import ZArith List Ascii String Bool Lia.
From Verif Require Import PyBase PyFacts Platform IntModel IntSpec IntProofs SigModel TabModel TabSpec TabProofs MemProofs ArgModel ArgSpec ArgProofs ArgProofs2.
Import ListNotations.
Open Scope Z_scope.

(** ** Arguments and keys of calls *)
Lemma add_spec f value name type : f_name (addArgument f value name type) = f_name f /\ f_restype (addArgument f value name type) = f_restype f /\
  f_args (addArgument f value name type) = f_args f ++ [Arg value type name None].
Proof. repeat split. Qed.
Lemma find_arg_spec key l : (forall a, find_arg key l = Ok a <-> exists before after, l = before ++ a :: after /\ a_name a = Some key /\ Forall (fun b => a_name b <> Some key) before) /\
  (find_arg key l = Err EKeyError <-> Forall (fun b => a_name b <> Some key) l) /\ (forall e, find_arg key l = Err e -> e = EKeyError).
Proof.
  induction l as [|x l (IH1 & IH2 & IH3)]; cbn [find_arg].
  - split; [|split; [split; [constructor|reflexivity]|congruence]]. intros a. split; [discriminate|]. intros ([|b bs] & after & H & _); discriminate.
  - assert (a_name x = Some key -> (match a_name x with Some n => if text_eqb n key then Ok x else find_arg key l | None => find_arg key l end) = Ok x) as Hhit.
    { intros ->. now rewrite text_eqb_refl. }
    assert (a_name x <> Some key -> (match a_name x with Some n => if text_eqb n key then Ok x else find_arg key l | None => find_arg key l end) = find_arg key l) as Hmiss.
    { destruct (a_name x) as [n|]; [|reflexivity]. intros H. destruct (text_eqb n key) eqn:E; [|reflexivity]. apply text_eqb_eq in E. subst. congruence. }
    assert (a_name x = Some key \/ a_name x <> Some key) as [Hx|Hx].
    { destruct (a_name x) as [n|]; [|right; discriminate]. destruct (text_eqb n key) eqn:E; [left; apply text_eqb_eq in E; now subst|right]. intros [= ->]. rewrite text_eqb_refl in E. discriminate. }
    + rewrite (Hhit Hx). split; [|split].
      * intros a. split; [intros [= <-]; exists [], l; repeat split; [exact Hx|constructor]|]. intros ([|b bs] & after & H & Ha & Hb); injection H as <- H; [reflexivity|]. inversion Hb; subst. contradiction.
      * split; [discriminate|]. inversion 1; subst. contradiction.
      * discriminate.
    + rewrite (Hmiss Hx). split; [|split].
      * intros a. rewrite IH1. split; [intros (bs & after & -> & Ha & Hb); exists (x :: bs), after; repeat split; [exact Ha|now constructor]|].
        intros ([|b bs] & after & H & Ha & Hb); injection H as <- H; [contradiction|]. inversion Hb; subst. exists bs, after. auto.
      * rewrite IH2. split; [now constructor|now inversion 1].
      * exact IH3.
Qed.

Section Facts.
  Context (p : platform) (ns : namespace) (repr_fs : list byte -> text) (opts : options) (v : view).
  Notation getText := (getText p ns repr_fs opts v).

  (** The names of the argument show in any case where the type or the name is missing *)
  Lemma unnamed_hex f a : absent (a_text a) -> absent (a_type a) \/ absent (a_name a) -> getText f a = Ok (formatWordHex p (a_value a)).
  Proof.
    intros Hx H. unfold ArgModel.getText, getText_. replace (truthy (a_text a)) with false by (destruct Hx as [-> | ->]; reflexivity).
    unfold createText, createText_. replace (negb (truthy (a_type a)) || negb (truthy (a_name a))) with true; [reflexivity|].
    symmetry. destruct H as [[-> | ->]|[-> | ->]]; try reflexivity; apply orb_true_r.
  Qed.
  Lemma fd_set_text f a nfds bytes : running_linux p = true -> p_bigendian p = false -> absent (a_text a) -> pointer_to a (T "fd_set") -> untreated f a -> a_value a <> 0 ->
    f_args f = nfds :: tl (f_args f) -> memory_at v (a_value a) bytes -> zlen bytes = 128 ->
    exists l, getText f a = Ok (formatPointer p opts (T "[" ++ join (T " ") (map str_int l) ++ T "]") (a_value a)) /\
      increasing l /\ (forall i, In i l <-> 0 <= i < 1024 /\ i < a_value nfds /\ bit_of p bytes i = true).
  Proof.
    intros Hl He Hx Hp Hu Hv Hn Hm Hlen. destruct (fd_set_spec p ns opts v f (a_value a) nfds bytes Hl He Hv Hn Hm Hlen) as (l & H & Hinc & Hin).
    exists l. split; [|split; assumption]. destruct (pointer_text p ns repr_fs opts v f a (T "fd_set") Hx Hp Hu) as [Ht _]; [left; discriminate|].
    apply Ht; [exact H|]. apply formatPointer_nonempty. discriminate.
  Qed.
  Lemma sigset_text f a size bytes : p_bigendian p = false -> absent (a_text a) -> pointer_to a (T "sigset_t") -> untreated f a -> a_value a <> 0 ->
    f_name f = T "rt_sigprocmask" -> find_arg (T "sigsetsize") (f_args f) = Ok size -> 0 <= a_value size -> (word_size p | a_value size) ->
    memory_at v (a_value a) bytes -> zlen bytes = a_value size ->
    exists l, getText f a = Ok (formatPointer p opts (T "<sigset=(" ++ join (T " ") (map (signalName ns) l) ++ T ")>") (a_value a)) /\
      increasing l /\ (forall i, In i l <-> 1 <= i <= 8 * a_value size /\ bit_of p bytes (i - 1) = true).
  Proof.
    intros He Hx Hp Hu Hv Hn Hs H0 Hd Hm Hlen. destruct (sigset_spec p ns opts v f (a_value a) size bytes He Hv Hn Hs H0 Hd Hm Hlen) as (l & H & Hinc & Hin).
    exists l. split; [|split; assumption]. destruct (pointer_text p ns repr_fs opts v f a (T "sigset_t") Hx Hp Hu) as [Ht _]; [left; discriminate|].
    apply Ht; [exact H|]. apply formatPointer_nonempty. discriminate.
  Qed.
  Lemma sockaddr_text f a t : absent (a_text a) -> pointer_to a (T "struct sockaddr") -> untreated f a -> a_value a <> 0 -> t <> [] ->
    formatSockaddr p opts v (a_value a) = Ok (formatPointer p opts t (a_value a)) -> getText f a = Ok (formatPointer p opts t (a_value a)).
  Proof.
    intros Hx Hp Hu Hv Ht Hs. destruct (pointer_text p ns repr_fs opts v f a (T "struct sockaddr") Hx Hp Hu) as [H _]; [left; discriminate|].
    apply H; [|now apply formatPointer_nonempty]. unfold formatValuePointer. replace (a_value a =? 0) with false by (symmetry; now apply Z.eqb_neq).
    change (starts_with (T "struct ") (T "struct sockaddr")) with true. cbv iota. change (skipn 7 (T "struct sockaddr")) with (T "sockaddr").
    change (text_eqb (T "sockaddr") (T "sockaddr")) with true. cbv iota. rewrite Hs. reflexivity.
  Qed.
  Lemma ipv4_linux f a f0 f1 p0 p1 a0 a1 a2 a3 : running_linux p = true -> p_bigendian p = false ->
    absent (a_text a) -> pointer_to a (T "struct sockaddr") -> untreated f a -> a_value a <> 0 ->
    host_value false [f0; f1] = 2 -> memory_at v (a_value a) [f0; f1; p0; p1; a0; a1; a2; a3] ->
    getText f a = Ok (formatPointer p opts (T "<sockaddr_in sin_family=2, sin_port=" ++ str_int (big_endian_value [p0; p1]) ++
      T ", sin_addr=" ++ dotted [a0; a1; a2; a3] ++ T ">") (a_value a)).
  Proof.
    intros Hl He Hx Hp Hu Hv Hf Hm. apply sockaddr_text; auto; [discriminate|]. apply (inet_linux p opts v (a_value a) f0 f1); auto. unfold running_bsd. now rewrite Hl.
  Qed.
  Lemma ipv4_bsd f a f0 f1 p0 p1 a0 a1 a2 a3 : running_bsd p = true -> p_bigendian p = false ->
    absent (a_text a) -> pointer_to a (T "struct sockaddr") -> untreated f a -> a_value a <> 0 ->
    b2z f1 = 2 -> memory_at v (a_value a) [f0; f1; p0; p1; a0; a1; a2; a3] ->
    getText f a = Ok (formatPointer p opts (T "<sockaddr_in sin_len=" ++ str_int (b2z f0) ++ T ", sin_family=2, sin_port=" ++
      str_int (big_endian_value [p0; p1]) ++ T ", sin_addr=" ++ dotted [a0; a1; a2; a3] ++ T ">") (a_value a)).
  Proof. intros Hl He Hx Hp Hu Hv Hf Hm. apply sockaddr_text; auto; [discriminate|]. apply (inet_bsd p opts v (a_value a) f0 f1); auto. Qed.
  Lemma ipv6_linux f a f0 f1 p0 p1 w0 w1 w2 w3 a0 a1 a2 a3 a4 a5 a6 a7 a8 a9 a10 a11 a12 a13 a14 a15 s0 s1 s2 s3 :
    running_linux p = true -> p_bigendian p = false ->
    absent (a_text a) -> pointer_to a (T "struct sockaddr") -> untreated f a -> a_value a <> 0 ->
    host_value false [f0; f1] = 10 ->
    memory_at v (a_value a) [f0; f1; p0; p1; w0; w1; w2; w3; a0; a1; a2; a3; a4; a5; a6; a7; a8; a9; a10; a11; a12; a13; a14; a15; s0; s1; s2; s3] ->
    getText f a = Ok (formatPointer p opts (T "<sockaddr_in6 sin6_family=10, sin6_port=" ++ str_int (big_endian_value [p0; p1]) ++
      T ", sin6_flowinfo=" ++ str_int (host_value false [w0; w1; w2; w3]) ++
      T ", sin6_addr=<in6_addr " ++ join (T ":") (groups [a0; a1; a2; a3; a4; a5; a6; a7; a8; a9; a10; a11; a12; a13; a14; a15]) ++
      T ">, sin6_scope_ip=" ++ str_int (host_value false [s0; s1; s2; s3]) ++ T ">") (a_value a)).
  Proof.
    intros Hl He Hx Hp Hu Hv Hf Hm. apply sockaddr_text; auto; [discriminate|]. apply (inet6_linux p opts v (a_value a) f0 f1); auto.
    unfold running_linux in Hl. now destruct (p_os p).
  Qed.
  Lemma unreadable f a base e : absent (a_text a) -> pointer_to a base -> untreated f a ->
    (base <> T "char" \/ ~ In (get (a_name a)) FILENAME_ARGUMENTS) ->
    formatValuePointer p ns opts v f (a_value a) base = Err e -> is_exception e = true -> getText f a = Ok (formatAddress p (a_value a)).
  Proof.
    intros Hx Hp Hu Hb. apply (pointer_text p ns repr_fs opts v f a base Hx Hp Hu).
    destruct Hb as [Hb|Hb]; [now left|right]. destruct (existsb _ _) eqn:E; [|reflexivity]. exfalso. apply Hb. now apply in_check.
  Qed.
  Lemma null_pointer f a base : absent (a_text a) -> pointer_to a base -> untreated f a ->
    (base <> T "char" \/ ~ In (get (a_name a)) FILENAME_ARGUMENTS) -> a_value a = 0 -> getText f a = Ok (T "NULL").
  Proof.
    intros Hx Hp Hu Hb. apply (pointer_null p ns repr_fs opts v f a base Hx Hp Hu).
    destruct Hb as [Hb|Hb]; [now left|right]. destruct (existsb _ _) eqn:E; [|reflexivity]. exfalso. apply Hb. now apply in_check.
  Qed.

  (** argv and envp of execve *)
  Lemma execve_array f a nm : f_name f = T "execve" -> a_name a = Some nm -> In nm [T "argv"; T "envp"] -> truthy (a_type a) = true -> absent (a_text a) ->
    forall t, readCStringArray p repr_fs opts v (a_value a) = Ok t -> getText f a = Ok t.
  Proof.
    intros Hf Hn Hin Ht Hx t Hr. destruct (getText_fallback p ns repr_fs opts v f a Hx) as [H _]. apply H.
    unfold createText, createText_. rewrite Hn, Hf, Ht.
    assert (dget text_eqb (T "execve") (SYSCALL_ARG_DICT p) = None) as -> by (unfold SYSCALL_ARG_DICT; destruct (p_os p); reflexivity).
    destruct Hin as [<-|[<-|[]]]; cbn [negb orb get]; rewrite Hr; reflexivity.
  Qed.

  (** At most max(1, max_array_count) words are read *)
  Lemma loop_reads v' : (forall a n, v_cstring v' a n = v_cstring v a n) ->
    forall fuel address max acc, (forall i, 0 <= i < Z.max 1 max - zlen acc -> v_word v' (address + i * word_size p) = v_word v (address + i * word_size p)) ->
    zlen acc < Z.max 1 max ->
    readCStringArray_loop p repr_fs opts v' fuel address max acc = readCStringArray_loop p repr_fs opts v fuel address max acc.
  Proof.
    intros Hc. induction fuel as [|fuel IH]; intros address max acc Hw Hlen; [reflexivity|]. cbn [readCStringArray_loop].
    pose proof (Hw 0 ltac:(lia)) as H0. rewrite Z.mul_0_l, Z.add_0_r in H0. rewrite H0. destruct (v_word v address) as [w|e]; [|reflexivity]. cbn [bind].
    assert (readCString p repr_fs opts v' w = readCString p repr_fs opts v w) as -> by (unfold readCString; now rewrite Hc).
    destruct (readCString p repr_fs opts v w) as [s|e]; [|reflexivity]. cbn [bind]. destruct (w =? 0); [reflexivity|].
    destruct (max <=? zlen (acc ++ [s])) eqn:E; [reflexivity|]. zb. rewrite zlen_app, zlen_cons, zlen_nil in E.
    assert (zlen (acc ++ [s]) = zlen acc + 1) as Hz by (rewrite zlen_app, zlen_cons, zlen_nil; lia). apply IH; [|rewrite Hz; lia]. intros i Hi. rewrite Hz in Hi.
    replace (address + word_size p + i * word_size p) with (address + (i + 1) * word_size p) by ring. apply Hw. lia.
  Qed.
  Lemma array_reads v' address : (forall a n, v_cstring v' a n = v_cstring v a n) ->
    (forall i, 0 <= i < Z.max 1 (o_max_array_count opts) -> v_word v' (address + i * word_size p) = v_word v (address + i * word_size p)) ->
    readCStringArray p repr_fs opts v' address = readCStringArray p repr_fs opts v address.
  Proof.
    intros Hc Hw. unfold readCStringArray. destruct (address =? 0); [reflexivity|]. rewrite (loop_reads v' Hc); [reflexivity| |unfold zlen; cbn [List.length]; lia].
    intros i Hi. apply Hw. unfold zlen in Hi. cbn [List.length] in Hi. lia.
  Qed.
  Lemma loop_ends : (forall a, v_word v a <> Err EDiverges) -> (forall a n, v_cstring v a n <> Err EDiverges) ->
    forall fuel address max acc, Z.max 1 max - zlen acc < Z.of_nat fuel -> 1 <= Z.of_nat fuel -> readCStringArray_loop p repr_fs opts v fuel address max acc <> Err EDiverges.
  Proof.
    intros Hw Hc. induction fuel as [|fuel IH]; intros address max acc Hf Hf1; [lia|]. cbn [readCStringArray_loop].
    destruct (v_word v address) as [w|e] eqn:E; cbn [bind]; [|intros [= ->]; now apply (Hw address)].
    unfold readCString at 1. destruct (w =? 0); cbn [negb].
    - discriminate.
    - destruct (v_cstring v w (o_string_max_length opts)) as [[d t]|e] eqn:Es; cbn [bind]; [|intros [= ->]; now apply (Hc w (o_string_max_length opts))].
      match goal with |- context [max <=? ?x] => destruct (max <=? x) eqn:El end; [discriminate|]. zb. apply IH; rewrite zlen_app, zlen_cons, zlen_nil in *; lia.
  Qed.
  Lemma array_ends address : (forall a, v_word v a <> Err EDiverges) -> (forall a n, v_cstring v a n <> Err EDiverges) ->
    readCStringArray p repr_fs opts v address <> Err EDiverges.
  Proof.
    intros Hw Hc. unfold readCStringArray. destruct (address =? 0); [discriminate|].
    destruct (Z.le_gt_cases (o_max_array_count opts) 0) as [Hm|Hm].
    - replace (Z.to_nat (o_max_array_count opts)) with 0%nat by lia. cbn [readCStringArray_loop].
      destruct (v_word v address) as [w|e] eqn:E; cbn [bind]; [|intros [= ->]; now apply (Hw address)].
      unfold readCString at 1. destruct (w =? 0); cbn [negb].
      + discriminate.
      + destruct (v_cstring v w (o_string_max_length opts)) as [[d t]|e] eqn:Es; cbn [bind]; [|intros [= ->]; now apply (Hc w (o_string_max_length opts))].
        match goal with |- context [?m <=? ?x] => replace (m <=? x) with true end; [discriminate|]. symmetry. apply Z.leb_le. cbn [app]. rewrite zlen_cons, zlen_nil. lia.
    - pose proof (loop_ends Hw Hc (S (Z.to_nat (o_max_array_count opts))) address (o_max_array_count opts) []) as H.
      rewrite zlen_nil in H. specialize (H ltac:(lia) ltac:(lia)). destruct (readCStringArray_loop _ _ _ _ _ _ _ _); cbn [bind]; [discriminate|congruence].
  Qed.

  (** The text of socketcall's second argument *)
  Lemma socketcall_first f a : f_name f = T "socketcall" -> a_name a = Some (T "call") -> truthy (a_type a) = true -> absent (a_text a) ->
    (forall name, In (a_value a, name) SOCKETCALL -> getText f a = Ok name) /\
    (~ In (a_value a) (map fst SOCKETCALL) -> getText f a = Ok (str_int (a_value a))).
  Proof.
    intros Hf Hn Ht Hx. destruct (getText_fallback p ns repr_fs opts v f a Hx) as [H _].
    assert (createText p ns repr_fs opts v f a = Ok (Some match dget Z.eqb (a_value a) SOCKETCALL with Some t => t | None => str_int (a_value a) end)) as Hc.
    { unfold createText, createText_. rewrite Hn, Hf, Ht. 
      assert (dget text_eqb (T "socketcall") (SYSCALL_ARG_DICT p) = None) as -> by (unfold SYSCALL_ARG_DICT; destruct (p_os p); reflexivity). reflexivity. }
    split.
    - intros name Hin. apply H. rewrite Hc. rewrite (dget_NoDup_In Z.eqb Z.eqb_eq (a_value a) name SOCKETCALL); [reflexivity| |exact Hin].
      apply (nodupb_spec Z.eqb Z.eqb_eq). vm_compute. reflexivity.
    - intros Hin. apply H. rewrite Hc. apply (dget_None Z.eqb Z.eqb_eq) in Hin. now rewrite Hin.
  Qed.
End Facts.

(** A small memory for examples: [bytes] at [base] *)
Definition mem_view (p : platform) (base : Z) (bytes : list byte) : view :=
  let read a n := slice (a - base) (a - base + n) bytes in
  View (fun a n => Ok (read a n))
       (fun a => bytes2word p (read a (word_size p)))
       (fun a n => let s := until_nul (read a n) in Ok (s, zlen s =? n)).
Lemma mem_view_at p base bytes : memory_at (mem_view p base bytes) base bytes.
Proof.
  intros n Hn. unfold mem_view. cbn [v_bytes]. unfold slice. replace (base - base) with 0 by lia. replace (0 + n - 0) with n by lia. reflexivity.
Qed.
Definition no_names : namespace := [].

(** ** Witnesses and further facts for ArgProps *)
Lemma int_shown p ns repr_fs opts v f a ty nm n : In ty [T "int"; T "pid_t"; T "clockid_t"] ->
  absent (a_text a) -> a_type a = Some ty -> a_name a = Some nm -> ordinary (f_name f) nm -> receives p ty (a_value a) n ->
  getText p ns repr_fs opts v f a = Ok (str_int n).
Proof.
  intros Hin Hx Ht Hn Ho Hr. destruct (integer_shown p ns repr_fs opts v f a ty nm n Hx Ht Hn Ho Hr) as [_ H]. apply H.
  - unfold raw_type. cbn [In] in *. destruct Hin as [<-|[<-|[<-|[]]]]; intros [Hc|[Hc|[Hc|[]]]]; discriminate.
  - destruct Hr as (s & b & Hi & _ & Hr). cbn [In] in Hin. destruct Hin as [<-|[<-|[<-|[]]]]; injection Hi as <- <-; exact Hr.
Qed.
Lemma ulong_shown p ns repr_fs opts v f a nm n :
  absent (a_text a) -> a_type a = Some (T "unsigned long") -> a_name a = Some nm -> ordinary (f_name f) nm ->
  0 <= a_value a < 2 ^ (8 * word_size p) -> receives p (T "unsigned long") (a_value a) n ->
  getText p ns repr_fs opts v f a = Ok (str_int n).
Proof.
  intros Hx Ht Hn Ho Hv Hr. destruct (integer_shown p ns repr_fs opts v f a _ nm n Hx Ht Hn Ho Hr) as [H _]. apply H; [right; now left|].
  destruct Hr as (s & b & Hi & [k Hk] & Hr). change (Some (false, 8 * word_size p) = Some (s, b)) in Hi. assert (s = false /\ b = 8 * word_size p) as [-> ->] by (split; congruence). cbv iota in Hr.
  set (m := 2 ^ (8 * word_size p)) in *. destruct (Z.lt_trichotomy k 0) as [Hk0|[->|Hk0]]; [exfalso; assert (k * m <= -1 * m) by (apply Z.mul_le_mono_nonneg_r; lia); lia|lia|exfalso; assert (1 * m <= k * m) by (apply Z.mul_le_mono_nonneg_r; lia); lia].
Qed.
Lemma size_witness : exists f a n, In a (f_args f) /\ has_prototype (f_name f) (T "long") [(T "unsigned long", T "addr"); (T "size_t", T "len")] /\
  a_type a = Some (T "size_t") /\ receives linux_x86_64 (T "size_t") (a_value a) n /\
  forall ns repr_fs opts v, getText linux_x86_64 ns repr_fs opts v f a <> Ok (str_int n).
Proof.
  exists (Func (T "munmap") (Some (T "long")) [Arg 4096 (Some (T "unsigned long")) (Some (T "addr")) None; Arg 0x80000000 (Some (T "size_t")) (Some (T "len")) None]),
    (Arg 0x80000000 (Some (T "size_t")) (Some (T "len")) None), 0x80000000.
  split; [right; now left|]. split; [apply has_prototype_dget; vm_compute; reflexivity|]. split; [reflexivity|].
  split; [exists false, 64; split; [reflexivity|]; split; [now exists 0|now split]|].
  intros ns repr_fs opts v. match goal with |- ?x <> _ => assert (x = Ok (T "-2147483648")) as -> by (vm_compute; reflexivity) end. vm_compute. discriminate.
Qed.
Lemma uid_witness : exists f a n, In a (f_args f) /\ has_prototype (f_name f) (T "long") [(T "uid_t", T "uid")] /\
  a_type a = Some (T "uid_t") /\ receives linux_x86_64 (T "uid_t") (a_value a) n /\
  forall ns repr_fs opts v, getText linux_x86_64 ns repr_fs opts v f a <> Ok (str_int n).
Proof.
  exists (Func (T "setuid") (Some (T "long")) [Arg 0xfffffffe (Some (T "uid_t")) (Some (T "uid")) None]),
    (Arg 0xfffffffe (Some (T "uid_t")) (Some (T "uid")) None), 0xfffffffe.
  split; [now left|]. split; [apply has_prototype_dget; vm_compute; reflexivity|]. split; [reflexivity|].
  split; [exists false, 32; split; [reflexivity|]; split; [now exists 0|now split]|].
  intros ns repr_fs opts v. match goal with |- ?x <> _ => assert (x = Ok (T "-2")) as -> by (vm_compute; reflexivity) end. vm_compute. discriminate.
Qed.
Lemma unsigned_witness : exists f a n, In a (f_args f) /\ has_prototype (f_name f) (T "long") [(T "unsigned int", T "fildes")] /\
  a_type a = Some (T "unsigned int") /\ receives linux_x86_64 (T "unsigned int") (a_value a) n /\
  forall ns repr_fs opts v, getText linux_x86_64 ns repr_fs opts v f a <> Ok (str_int n).
Proof.
  exists (Func (T "dup") (Some (T "long")) [Arg 0x100000003 (Some (T "unsigned int")) (Some (T "fildes")) None]),
    (Arg 0x100000003 (Some (T "unsigned int")) (Some (T "fildes")) None), 3.
  split; [now left|]. split; [apply has_prototype_dget; vm_compute; reflexivity|]. split; [reflexivity|].
  split; [exists false, 32; split; [reflexivity|]; split; [now exists 1|now split]|].
  intros ns repr_fs opts v. match goal with |- ?x <> _ => assert (x = Ok (T "4294967299")) as -> by (vm_compute; reflexivity) end. vm_compute. discriminate.
Qed.
Lemma more_witness : exists opts v address ws ss, Forall (fun w => w <> 0) ws /\
  Forall2 (fun w s => readCString linux_i386 repr_ascii opts v w = Ok s) ws ss /\
  words_at linux_i386 v address (ws ++ [0]) /\ zlen ws = o_max_array_count opts /\
  readCStringArray linux_i386 repr_ascii opts v address =
    Ok (T "<(" ++ join (T ", ") (ss ++ [more_text (o_max_array_count opts)]) ++ T ")>").
Proof.
  exists (Options false false true 300 false 1 false), (mem_view linux_i386 4096 (map z2b [8; 16; 0; 0; 0; 0; 0; 0; 108; 115; 0])), 4096, [4104], [T "'ls'"].
  split; [repeat constructor; discriminate|]. split; [repeat constructor; vm_compute; reflexivity|]. split; [|split; [reflexivity|vm_compute; reflexivity]].
  intros [|[|[|i]]] w Hi; try discriminate Hi; injection Hi as <-; vm_compute; reflexivity.
Qed.
Lemma socketcall_numbers n name : n <= 17 -> (In (n, name) SOCKETCALL <-> In (n, name) net_h).
Proof.
  intros Hn. replace net_h with (SOCKETCALL ++ [(18, T "accept4"); (19, T "recvmmsg"); (20, T "sendmmsg")]) by reflexivity. rewrite in_app_iff.
  split; [now left|]. intros [H|H]; [exact H|]. exfalso. destruct H as [H|[H|[H|[]]]]; injection H as <- _; lia.
Qed.
Lemma socketcall_missing : exists n name, In (n, name) net_h /\ ~ In n (map fst SOCKETCALL).
Proof. exists 18, (T "accept4"). split; [do 17 right; now left|]. intros H. assert (existsb (Z.eqb 18) (map fst SOCKETCALL) = true) as Hc by (apply existsb_exists; exists 18; now split). discriminate Hc. Qed.
Lemma big_endian_witness : exists v, memory_at v 4096 (map z2b [0; 2; 0; 80; 10; 0; 0; 1]) /\
  formatSockaddr linux_ppc64 default_options v 4096 = Ok (T "<sockaddr_in sin_family=2, sin_port=20480, sin_addr=1.0.0.10>").
Proof. exists (mem_view linux_ppc64 4096 (map z2b [0; 2; 0; 80; 10; 0; 0; 1])). split; [apply mem_view_at|vm_compute; reflexivity]. Qed.
Lemma fd_set_witness : exists v bytes f a, memory_at v (a_value a) bytes /\ zlen bytes = 128 /\
  pointer_to a (T "fd_set") /\ untreated f a /\ a_value a <> 0 /\ bit_of linux_ppc64 bytes 0 = true /\
  getText linux_ppc64 no_names repr_ascii default_options v f a = Ok (T "[56]").
Proof.
  set (bytes := map z2b [0; 0; 0; 0; 0; 0; 0; 1] ++ repeat (z2b 0) 120). set (a := Arg 4096 (Some (T "fd_set *")) (Some (T "readfds")) None).
  exists (mem_view linux_ppc64 4096 bytes), bytes, (Func (T "select") None [Arg 1024 (Some (T "int")) (Some (T "nfds")) None; a]), a.
  split; [apply mem_view_at|]. split; [reflexivity|]. split; [repeat split; [discriminate|]; now left|]. split.
  - exists (T "readfds"). repeat split; try discriminate. left. unfold treated_calls. cbn. intuition discriminate.
  - split; [discriminate|]. split; vm_compute; reflexivity.
Qed.
Lemma rlimit_witness : exists v, memory_at v 4096 (repeat (z2b 255) 16) /\ host_value false (repeat (z2b 255) 8) = 2 ^ 64 - 1 /\
  readStruct linux_x86_64 default_options v 4096 (T "rlimit") [(T "rlim_cur", CInt true 8); (T "rlim_max", CInt true 8)] =
    Ok (T "<rlimit rlim_cur=-1, rlim_max=-1>").
Proof. exists (mem_view linux_x86_64 4096 (repeat (z2b 255) 16)). split; [apply mem_view_at|]. split; vm_compute; reflexivity. Qed.
Lemma format_fails_only p ns repr_fs opts v f e : format p ns repr_fs opts v f = Err e ->
  e = EKeyboardInterrupt \/ (exists code, e = ESystemExit code) \/ e = EUndefined \/ e = EDiverges.
Proof. intros H. apply format_fails in H. destruct e; try discriminate H; eauto 6. Qed.
