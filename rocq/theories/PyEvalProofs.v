From Coq Require Import ZArith List Ascii String Bool Lia.
From Verif Require Import PyBase PyFacts PyEval ExprSpec.
Import ListNotations.
Open Scope Z_scope.

(** ** Fuel *)
Definition rank (m : mode) : nat := match m with Level n => 9 - n | Loop _ _ => 1 | Calls _ => 1 end.
Definition consumes (m : mode) : nat := match m with Level _ => 1 | _ => 0 end.
Lemma parse_total : forall fuel m ts, (List.length ts * 12 + rank m < fuel)%nat -> (match m with Level n => n <= 7 | Loop n _ => n <= 4 | _ => True end)%nat ->
  match parse fuel m ts with
  | Ok (_, r) => (List.length r + consumes m <= List.length ts)%nat
  | Err e => e = ESyntaxError
  end.
Proof.
  induction fuel as [|fuel IH]; intros m ts Hf Hm; [lia|].
  assert (forall n r, (n <= 7)%nat -> (List.length r < List.length ts)%nat -> match parse fuel (Level n) r with Ok (_, r') => (List.length r' + 1 <= List.length r)%nat | Err e => e = ESyntaxError end) as Hshort.
  { intros n r Hn Hr. apply (IH (Level n) r); [cbn [rank]; lia|exact Hn]. }
  assert (forall a r, (List.length r < List.length ts)%nat -> match parse fuel (Calls a) r with Ok (_, r') => (List.length r' <= List.length r)%nat | Err e => e = ESyntaxError end) as Hcalls.
  { intros a r Hr. specialize (IH (Calls a) r). cbn [rank consumes] in IH. destruct (parse fuel (Calls a) r) as [[? ?]|]; (destruct ts; [cbn in Hr; lia|cbn [List.length] in *; specialize (IH ltac:(lia) I); lia || exact IH]). }
  destruct m as [n|n a|a].
  - assert (forall n, (n <= 6)%nat -> (rank (Level (S n)) + List.length ts * 12 < fuel)%nat -> match parse fuel (Level (S n)) ts with Ok (_, r') => (List.length r' + 1 <= List.length ts)%nat | Err e => e = ESyntaxError end) as Hnext.
    { intros n0 Hn0 Hr. apply (IH (Level (S n0)) ts); [lia|lia]. }
    assert (forall n, (n <= 4)%nat -> (rank (Level n) + List.length ts * 12 < S fuel)%nat ->
      match (do x <- parse fuel (Level (S n)) ts; parse fuel (Loop n (fst x)) (snd x)) with Ok (_, r) => (List.length r + 1 <= List.length ts)%nat | Err e => e = ESyntaxError end) as Hbin.
    { intros n0 Hn0 Hr. specialize (Hnext n0 ltac:(lia)). cbn [rank] in Hnext, Hr. specialize (Hnext ltac:(lia)). destruct (parse fuel (Level (S n0)) ts) as [[x r]|e]; [|exact Hnext]. cbn [bind fst snd].
      specialize (IH (Loop n0 x) r). cbn [rank consumes] in IH. specialize (IH ltac:(lia) Hn0). destruct (parse fuel (Loop n0 x) r) as [[? ?]|]; [lia|exact IH]. }
    cbn [consumes]. cbn [parse].
    destruct n as [|[|[|[|[|[|[|[|n]]]]]]]]; [apply Hbin; [lia|cbn [rank] in *; lia]..| | | |lia].
    + assert (forall minus r, (List.length r < List.length ts)%nat -> match (do x <- parse fuel (Level 5) r; Ok (AUnary minus (fst x), snd x)) with Ok (_, r) => (List.length r + 1 <= List.length ts)%nat | Err e => e = ESyntaxError end) as Hu.
      { intros minus r Hr. specialize (Hshort 5%nat r ltac:(lia) Hr). destruct (parse fuel (Level 5) r) as [[? ?]|]; [cbn; lia|exact Hshort]. }
      destruct ts as [|[z|o| |] r]; try (apply Hnext; [lia|cbn [rank] in *; lia]).
      destruct o; try (apply Hnext; [lia|cbn [rank] in *; lia]); apply Hu; cbn; lia.
    + specialize (Hnext 6%nat ltac:(lia)). cbn [rank] in Hnext, Hf. specialize (Hnext ltac:(lia)). destruct (parse fuel (Level 7) ts) as [[x r]|e]; [|exact Hnext]. cbn [bind fst snd].
      destruct r as [|[z|o| |] r]; try exact Hnext. destruct o; try exact Hnext. cbn [List.length] in Hnext. specialize (Hshort 5%nat r ltac:(lia) ltac:(lia)).
      destruct (parse fuel (Level 5) r) as [[y r']|e]; [|exact Hshort]. cbn [bind fst snd]. lia.
    + assert (forall r, (List.length r < List.length ts)%nat -> match (do x <- parse fuel (Level 0) r; match snd x with TRpar :: r => parse fuel (Calls (AParen (fst x))) r | _ => Err ESyntaxError end) with Ok (_, r) => (List.length r + 1 <= List.length ts)%nat | Err e => e = ESyntaxError end) as Hp.
      { intros r Hr. specialize (Hshort 0%nat r ltac:(lia) Hr). destruct (parse fuel (Level 0) r) as [[x r']|e]; [|exact Hshort]. cbn [bind fst snd].
        destruct r' as [|[z|o| |] r']; try reflexivity. cbn [List.length] in Hshort. specialize (Hcalls (AParen x) r' ltac:(lia)). destruct (parse fuel (Calls (AParen x)) r') as [[? ?]|]; [lia|exact Hcalls]. }
      destruct ts as [|[z|o| |] r]; try reflexivity.
      * specialize (Hcalls (ANum z) r ltac:(cbn; lia)). destruct (parse fuel (Calls (ANum z)) r) as [[? ?]|]; [cbn; lia|exact Hcalls].
      * destruct r as [|[z|o| |] r']; try (apply Hp; cbn; lia).
        specialize (Hcalls ATuple r' ltac:(cbn; lia)). destruct (parse fuel (Calls ATuple) r') as [[? ?]|]; [cbn; lia|exact Hcalls].
  - cbn [parse consumes]. destruct ts as [|[z|o| |] r]; try (cbn; lia). destruct (Nat.eqb (level o) n); [|cbn; lia].
    specialize (Hshort (S n) r ltac:(lia) ltac:(cbn; lia)). destruct (parse fuel (Level (S n)) r) as [[x r']|e]; [|exact Hshort]. cbn [bind fst snd].
    specialize (IH (Loop n (ABin o a x)) r'). cbn [rank consumes] in IH, Hf. cbn [List.length] in Hf. specialize (IH ltac:(lia) Hm). destruct (parse fuel (Loop n (ABin o a x)) r') as [[? ?]|]; [cbn; lia|exact IH].
  - cbn [parse consumes].
    assert (forall r, (List.length r < List.length ts)%nat -> match (do x <- parse fuel (Level 0) r; match snd x with TRpar :: r => parse fuel (Calls (ACall a (fst x))) r | _ => Err ESyntaxError end) with Ok (_, r) => (List.length r + 0 <= List.length ts)%nat | Err e => e = ESyntaxError end) as Hp.
    { intros r Hr. specialize (Hshort 0%nat r ltac:(lia) Hr). destruct (parse fuel (Level 0) r) as [[x r']|e]; [|exact Hshort]. cbn [bind fst snd].
      destruct r' as [|[z|o| |] r']; try reflexivity. cbn [List.length] in Hshort. specialize (Hcalls (ACall a x) r' ltac:(lia)). destruct (parse fuel (Calls (ACall a x)) r') as [[? ?]|]; [lia|exact Hcalls]. }
    destruct ts as [|[z|o| |] r]; try (cbn; lia). destruct r as [|[z|o| |] r']; try (apply Hp; cbn; lia).
    + destruct o; apply Hp; cbn; lia.
    + specialize (Hcalls (ACall0 a) r' ltac:(cbn; lia)). destruct (parse fuel (Calls (ACall0 a)) r') as [[? ?]|]; [cbn; lia|exact Hcalls].
Qed.
Lemma parse_mono : forall fuel m ts r, parse fuel m ts = r -> r <> Err EDiverges -> forall fuel', (fuel <= fuel')%nat -> parse fuel' m ts = r.
Proof.
  induction fuel as [|fuel IH]; intros m ts r Hr Hn fuel' Hf; [cbn in Hr; congruence|]. destruct fuel' as [|fuel']; [lia|].
  assert (forall m ts (k : ast * list token -> res (ast * list token)) (k' : ast * list token -> res (ast * list token)), (forall x, k x = r -> k' x = r) -> bind (parse fuel m ts) k = r -> bind (parse fuel' m ts) k' = r) as Hb.
  { intros m0 ts0 k k' Hk H. destruct (parse fuel m0 ts0) as [x|e] eqn:E.
    - rewrite (IH _ _ _ E ltac:(discriminate) fuel' ltac:(lia)). cbn [bind] in *. auto.
    - cbn [bind] in H. rewrite (IH _ _ _ E ltac:(congruence) fuel' ltac:(lia)). exact H. }
  assert (forall m ts, parse fuel m ts = r -> parse fuel' m ts = r) as Ht by (intros m0 ts0 H; apply IH; [exact H|exact Hn|lia]).
  destruct m as [n|n a|a]; cbn [parse] in *.
  - assert (forall n, (do x <- parse fuel (Level (S n)) ts; parse fuel (Loop n (fst x)) (snd x)) = r -> (do x <- parse fuel' (Level (S n)) ts; parse fuel' (Loop n (fst x)) (snd x)) = r) as Hbin.
    { intros n0. apply Hb. intros x. apply Ht. }
    destruct n as [|[|[|[|[|[|[|[|n]]]]]]]]; try (apply Hbin; exact Hr).
    + destruct ts as [|[z|o| |] l]; try (apply Ht; exact Hr). destruct o; try (apply Ht; exact Hr); revert Hr; apply Hb; auto.
    + revert Hr. apply Hb. intros x. destruct (snd x) as [|[z|o| |] l]; auto. destruct o; auto. apply Hb. auto.
    + destruct ts as [|[z|o| |] l]; auto. destruct l as [|[z|o| |] l']; auto; revert Hr; apply Hb; intros x; destruct (snd x) as [|[?|?| |] ?]; auto.
  - destruct ts as [|[z|o| |] l]; auto. destruct (Nat.eqb (level o) n); auto. revert Hr. apply Hb. intros x. apply Ht.
  - destruct ts as [|[z|o| |] l]; auto. destruct l as [|[z|o| |] l']; auto; try (revert Hr; apply Hb; intros x; destruct (snd x) as [|[?|?| |] ?]; auto).
Qed.
Lemma parse_text_ok s ts a n : lex [] s = Ok ts -> (forall f, (n <= f)%nat -> parse f (Level 0) ts = Ok (a, [])) -> parse_text s = Ok a.
Proof.
  intros H1 H2. unfold parse_text. rewrite H1. cbn [bind]. pose proof (parse_total (S (List.length ts) * 20) (Level 0) ts) as Ht. cbn [rank] in Ht. specialize (Ht ltac:(lia) ltac:(lia)).
  assert (parse (S (List.length ts) * 20) (Level 0) ts = Ok (a, [])) as ->; [|reflexivity].
  rewrite <- (H2 (n + S (List.length ts) * 20)%nat ltac:(lia)). symmetry. eapply parse_mono; [reflexivity| |lia]. destruct (parse (S (List.length ts) * 20) (Level 0) ts) as [|e]; [discriminate|]. congruence.
Qed.

(** ** Parsing what was printed *)
Definition op_of (o : binop) : op :=
  match o with BLt => OLt | BGt => OGt | BAnd => OAnd | BShl => OShl | BShr => OShr | BAdd => OAdd | BSub => OSub | BMul => OMul | BDiv => OFloorDiv | BPow => OPow end.
Lemma level_op o : level (op_of o) = prec o.
Proof. destruct o; reflexivity. Qed.
Definition wrap (b : bool) (l : list token) : list token := if b then TLpar :: l ++ [TRpar] else l.
Definition sign_op (m : bool) : op := if m then OSub else OAdd.
Fixpoint toks (k : nat) (e : expr Z) : list token :=
  match e with
  | Leaf z => [TNum z]
  | Empty => [TLpar; TRpar]
  | Paren a => wrap true (toks 0 a)
  | Sign m a => wrap (Nat.ltb 5 k) (TOp (sign_op m) :: toks 5 a)
  | Bin o a b => wrap (Nat.ltb (prec o) k) (toks (left_prec o) a ++ TOp (op_of o) :: toks (right_prec o) b)
  end.
Definition awrap (b : bool) (a : ast) : ast := if b then AParen a else a.
Fixpoint tree (k : nat) (e : expr Z) : ast :=
  match e with
  | Leaf z => ANum z
  | Empty => ATuple
  | Paren a => AParen (tree 0 a)
  | Sign m a => awrap (Nat.ltb 5 k) (AUnary m (tree 5 a))
  | Bin o a b => awrap (Nat.ltb (prec o) k) (ABin (op_of o) (tree (left_prec o) a) (tree (right_prec o) b))
  end.
Definition follows (k : nat) (ts : list token) : Prop :=
  match ts with TOp o :: _ => (level o < k)%nat | TLpar :: _ => False | _ => True end.
Lemma follows_mono k j ts : (k <= j)%nat -> follows k ts -> follows j ts.
Proof. destruct ts as [|[z|o| |] r]; cbn; auto. lia. Qed.
Definition full (k : nat) (l : list token) (a : ast) : Prop :=
  forall ts, follows k ts -> exists n, forall f, (n <= f)%nat -> parse f (Level k) (l ++ ts) = Ok (a, ts).
Definition loops (k : nat) (l : list token) (a : ast) : Prop :=
  forall ts r, follows (S k) ts -> (exists n, forall f, (n <= f)%nat -> parse f (Loop k a) ts = r) -> exists n, forall f, (n <= f)%nat -> parse f (Level k) (l ++ ts) = r.
Lemma parse_bin f k ts : (k <= 4)%nat -> parse (S f) (Level k) ts = (do x <- parse f (Level (S k)) ts; parse f (Loop k (fst x)) (snd x)).
Proof. intros H. do 5 (destruct k as [|k]; [reflexivity|]). lia. Qed.
Lemma climb k l a : (k <= 4)%nat -> full (S k) l a -> loops k l a.
Proof.
  intros Hk Hf ts r Hts (n2 & H2). destruct (Hf ts Hts) as (n1 & H1). exists (S (n1 + n2)). intros f Hle. destruct f as [|f]; [lia|]. rewrite parse_bin by exact Hk. rewrite H1 by lia. cbn [bind fst snd]. apply H2. lia.
Qed.
Lemma loop_full k l a : loops k l a -> full k l a.
Proof.
  intros H ts Hts. apply H; [eapply follows_mono; [|exact Hts]; lia|]. exists 1%nat. intros f Hf. destruct f as [|f]; [lia|]. cbn [parse]. destruct ts as [|[z|o| |] r]; try reflexivity.
  cbn in Hts. destruct (Nat.eqb_spec (level o) k); [lia|reflexivity].
Qed.
Definition signed (l : list token) : Prop := match l with TOp OAdd :: _ | TOp OSub :: _ => True | _ => False end.
Lemma full_6 l a : full 7 l a -> full 6 l a.
Proof.
  intros H ts Hts. destruct (H ts) as (n & Hn); [eapply follows_mono; [|exact Hts]; lia|]. exists (S n). intros f Hf. destruct f as [|f]; [lia|]. cbn [parse]. rewrite Hn by lia. cbn [bind snd fst].
  destruct ts as [|[z|o| |] r]; try reflexivity. destruct o; try reflexivity. cbn in Hts. lia.
Qed.
Lemma full_5 l a : l <> [] -> ~ signed l -> full 6 l a -> full 5 l a.
Proof.
  intros Hl Hs H ts Hts. destruct (H ts) as (n & Hn); [eapply follows_mono; [|exact Hts]; lia|]. exists (S n). intros f Hf. destruct f as [|f]; [lia|]. specialize (Hn f ltac:(lia)). cbn [parse].
  destruct l as [|[z|o| |] r]; try exact Hn; [congruence|]. destruct o; try exact Hn; cbn in Hs; tauto.
Qed.
(** From a level down *)
Lemma down j l a : (j <= 5)%nat -> full j l a -> forall k, (k <= j)%nat -> full k l a /\ ((k < j)%nat -> loops k l a).
Proof.
  intros Hj Hf k Hk. remember (j - k)%nat as d. revert k Hk Heqd. induction d as [|d IH]; intros k Hk Hd.
  - assert (k = j) as -> by lia. split; [exact Hf|lia].
  - destruct (IH (S k) ltac:(lia) ltac:(lia)) as [H _]. assert (loops k l a) as Hl by (apply climb; [lia|exact H]). split; [now apply loop_full|auto].
Qed.
Definition good (k : nat) (l : list token) (a : ast) : Prop := full k l a /\ ((k <= 4)%nat -> loops k l a).
Lemma atom l a : l <> [] -> ~ signed l -> full 7 l a -> forall k, (k <= 7)%nat -> good k l a.
Proof.
  intros Hl Hs H7 k Hk. pose proof (full_6 _ _ H7) as H6. pose proof (full_5 _ _ Hl Hs H6) as H5. destruct (Nat.eq_dec k 7) as [->|]; [split; [exact H7|lia]|]. destruct (Nat.eq_dec k 6) as [->|]; [split; [exact H6|lia]|].
  destruct (down 5 l a ltac:(lia) H5 k ltac:(lia)) as [Hf Hlo]. split; [exact Hf|]. intros. apply Hlo. lia.
Qed.
Lemma toks_nonempty k e : toks k e <> [].
Proof. destruct e; cbn [toks]; unfold wrap; try discriminate; destruct (Nat.ltb _ _); try discriminate. destruct (toks _ _); discriminate. Qed.
Lemma toks_first e : forall k, match toks k e with TNum _ :: _ => True | TLpar :: _ => True | TOp OSub :: _ | TOp OAdd :: _ => (k <= 5)%nat | _ => False end.
Proof.
  induction e as [z| |e IH|m e IH|o a IHa b IHb]; intros k; cbn [toks]; [exact I|exact I|exact I| |].
  - unfold wrap. destruct (Nat.ltb_spec 5 k); [exact I|destruct m; cbn; lia].
  - unfold wrap. destruct (Nat.ltb_spec (prec o) k); cbn [app]; [exact I|]. specialize (IHa (left_prec o)).
    destruct (toks (left_prec o) a) as [|[z|o'| |] r]; cbn [app]; try exact IHa; try contradiction. destruct o'; try exact IHa; destruct o; cbn in *; lia.
Qed.
Lemma calls_end ts a f : follows 7 ts -> parse (S f) (Calls a) ts = Ok (a, ts).
Proof. intros H. cbn [parse]. destruct ts as [|[z|o| |] r]; try reflexivity. contradiction. Qed.
Lemma paren_full l a : l <> [] -> (match l with TRpar :: _ => False | _ => True end) -> full 0 l a -> full 7 (TLpar :: l ++ [TRpar]) (AParen a).
Proof.
  intros Hl Hr H ts Hts. destruct (H (TRpar :: ts) I) as (n & Hn). exists (S (S n)). intros f Hf. destruct f as [|f]; [lia|]. cbn [app]. rewrite <- app_assoc. cbn [app].
  assert (parse (S f) (Level 7) (TLpar :: l ++ TRpar :: ts) = (do x <- parse f (Level 0) (l ++ TRpar :: ts); match snd x with TRpar :: r => parse f (Calls (AParen (fst x))) r | _ => Err ESyntaxError end)) as ->.
  { cbn [parse]. destruct l as [|[z|o| |] r]; try reflexivity; [congruence|contradiction]. }
  rewrite Hn by lia. cbn [bind fst snd]. destruct f as [|f]; [lia|]. now apply calls_end.
Qed.
Lemma bin_loops p o la ta lb tb : (p <= 4)%nat -> level o = p -> loops p la ta -> full (S p) lb tb -> loops p (la ++ TOp o :: lb) (ABin o ta tb).
Proof.
  intros Hp Ho Ha Hb ts r Hts (m & Hm). rewrite <- app_assoc. apply Ha; [cbn; lia|]. destruct (Hb ts Hts) as (n & Hn). exists (S (n + m)). intros f Hf. destruct f as [|f]; [lia|].
  cbn [app parse]. rewrite Ho, Nat.eqb_refl, Hn by lia. cbn [bind fst snd]. apply Hm. lia.
Qed.
Lemma pow_full la ta lb tb : full 7 la ta -> full 5 lb tb -> full 6 (la ++ TOp OPow :: lb) (ABin OPow ta tb).
Proof.
  intros Ha Hb ts Hts. rewrite <- app_assoc. cbn [app]. destruct (Hb ts) as (n & Hn).
  { destruct ts as [|[?|o'| |] ?]; cbn in *; auto. destruct o'; cbn in *; lia. }
  destruct (Ha (TOp OPow :: lb ++ ts)) as (m & Hm); [cbn; lia|]. exists (S (n + m)). intros f Hf. destruct f as [|f]; [lia|].
  cbn [parse]. rewrite Hm by lia. cbn [bind fst snd]. rewrite Hn by lia. reflexivity.
Qed.
Lemma parse_toks e : forall k, (k <= 7)%nat -> good k (toks k e) (tree k e).
Proof.
  assert (forall k t, (match t with TNum _ :: _ => True | TLpar :: _ => True | TOp OSub :: _ | TOp OAdd :: _ => (k <= 5)%nat | _ => False end) -> t <> [] /\ (match t with TRpar :: _ => False | _ => True end) /\ ((5 < k)%nat -> ~ signed t)) as Hfirst.
  { intros k t. destruct t as [|[z|o| |] r]; try contradiction; intros H; (split; [discriminate|split; [exact I|]]); intros Hk; try exact id. destruct o; try contradiction; lia. }
  induction e as [z| |e IH|m e IH|o a IHa b IHb]; intros k Hk.
  - cbn [toks tree]. apply atom; [discriminate|exact id| |exact Hk]. intros ts Hts. exists 2%nat. intros f Hf. destruct f as [|[|f]]; try lia. change (parse (S (S f)) (Level 7) ([TNum z] ++ ts)) with (parse (S f) (Calls (ANum z)) ts). now apply calls_end.
  - cbn [toks tree]. apply atom; [discriminate|exact id| |exact Hk]. intros ts Hts. exists 2%nat. intros f Hf. destruct f as [|[|f]]; try lia. change (parse (S (S f)) (Level 7) ([TLpar; TRpar] ++ ts)) with (parse (S f) (Calls ATuple) ts). now apply calls_end.
  - cbn [toks tree wrap]. apply atom; [discriminate|exact id| |exact Hk]. destruct (Hfirst 0%nat _ (toks_first e 0%nat)) as (F1 & F2 & _). apply paren_full; [exact F1|exact F2|]. apply IH. lia.
  - set (l := TOp (sign_op m) :: toks 5 e). set (t := AUnary m (tree 5 e)).
    assert (full 5 l t) as H5.
    { intros ts Hts. destruct (proj1 (IH 5%nat ltac:(lia)) ts Hts) as (n & Hn). exists (S n). intros f Hf. destruct f as [|f]; [lia|]. unfold l. cbn [app]. destruct m; cbn [parse sign_op]; rewrite Hn by lia; reflexivity. }
    cbn [toks tree]. unfold wrap, awrap. fold l t. destruct (Nat.ltb_spec 5 k) as [Hlt|Hge].
    + apply atom; [discriminate|exact id| |exact Hk]. apply paren_full; [discriminate|exact I|]. apply (down 5 l t ltac:(lia) H5). lia.
    + destruct (down 5 l t ltac:(lia) H5 k Hge) as [Hf Hlo]. split; [exact Hf|]. intros. apply Hlo. lia.
  - set (l := toks (left_prec o) a ++ TOp (op_of o) :: toks (right_prec o) b). set (t := ABin (op_of o) (tree (left_prec o) a) (tree (right_prec o) b)).
    assert (l <> [] /\ (match l with TRpar :: _ => False | _ => True end) /\ (o = BPow -> ~ signed l)) as (Hl1 & Hl2 & Hl3).
    { destruct (Hfirst (left_prec o) _ (toks_first a (left_prec o))) as (F1 & F2 & F3). unfold l. destruct (toks (left_prec o) a) as [|x r]; [congruence|]. cbn [app]. split; [discriminate|]. split; [exact F2|]. intros ->. apply F3. cbn. lia. }
    assert (o = BPow /\ full 6 l t \/ o <> BPow /\ loops (prec o) l t) as Hnat.
    { destruct o; [right; split; [discriminate|]..|left; split; [reflexivity|]].
      10:{ apply pow_full; [apply (IHa 7%nat); cbn; lia|apply (IHb 5%nat); cbn; lia]. }
      all: apply bin_loops; [cbn; lia|reflexivity|apply IHa; cbn; lia|apply IHb; cbn; lia]. }
    assert (forall k, (k <= prec o)%nat -> good k l t) as Hlow.
    { intros j Hj. destruct Hnat as [[-> H6]|[Ho Hlo]].
      - cbn in Hj. destruct (Nat.eq_dec j 6) as [->|]; [split; [exact H6|lia]|]. assert (full 5 l t) as H5 by (apply full_5; auto). destruct (down 5 l t ltac:(lia) H5 j ltac:(lia)) as [Hf Hl']. split; [exact Hf|]. intros. apply Hl'. lia.
      - assert (prec o <= 4)%nat as Hp by (destruct o; cbn; (lia || congruence)). destruct (Nat.eq_dec j (prec o)) as [->|]; [split; [now apply loop_full|auto]|].
        destruct (down (prec o) l t ltac:(lia) (loop_full _ _ _ Hlo) j ltac:(lia)) as [Hf Hl']. split; [exact Hf|]. intros. apply Hl'. lia. }
    cbn [toks tree]. unfold wrap, awrap. fold l t. destruct (Nat.ltb_spec (prec o) k) as [Hlt|Hge]; [|now apply Hlow].
    apply atom; [discriminate|exact id| |exact Hk]. apply paren_full; [exact Hl1|exact Hl2|]. apply Hlow. lia.
Qed.
Lemma op_py o a b : apply_op (op_of o) (py a) (py b) = (do v <- bin_value o a b; Ok (py v)).
Proof.
  assert (forall x y, int_op (op_of o) x y = (do v <- arith o x y; Ok (py v))) as H.
  { intros x y. destruct o; cbn [op_of int_op arith]; try reflexivity.
    - destruct (y <? 0) eqn:Ey; [reflexivity|]. zb. cbn [bind py]. now rewrite Z.shiftl_mul_pow2.
    - destruct (y <? 0) eqn:Ey; [reflexivity|]. zb. cbn [bind py]. now rewrite Z.shiftr_div_pow2.
    - destruct (y =? 0); reflexivity.
    - destruct (0 <=? y); [reflexivity|]. destruct (x =? 0); reflexivity. }
  destruct o, a as [x|[]|], b as [y|[]|]; cbn [py bin_value number bind]; try reflexivity; apply H.
Qed.
Lemma eval_tree e : (forall k, eval_ast (tree k e) = (do v <- value e; Ok (py v))) /\ match e with Bin _ _ m => forall k, eval_ast (tree k m) = (do v <- value m; Ok (py v)) | _ => True end.
Proof.
  assert (forall b a, eval_ast (awrap b a) = eval_ast a) as Hw by (intros [] a; reflexivity).
  induction e as [z| |e [IH _]|m e [IH _]|o a [IHa IHm] b [IHb _]]; (split; [|try exact I; try exact IHb]); intros k; [reflexivity|reflexivity|exact (IH 0%nat)|..].
  - cbn [tree value]. rewrite Hw. cbn [eval_ast]. rewrite IH. destruct (value e) as [[x|[]|]|]; reflexivity.
  - assert (forall ta, (do x <- eval_ast ta; do y <- eval_ast (tree (right_prec o) b); apply_op (op_of o) x y) =
       (do x <- eval_ast ta; do y <- value b; apply_op (op_of o) x (py y))) as Hb.
    { intros ta. rewrite IHb. destruct (eval_ast ta); [|reflexivity]. cbn [bind]. destruct (value b); reflexivity. }
    assert (forall x, (forall k, eval_ast (tree k x) = (do v <- value x; Ok (py v))) -> forall k, (do x <- eval_ast (tree k x); do y <- eval_ast (tree (right_prec o) b); apply_op (op_of o) x y) =
       (do v <- (do x <- value x; do y <- value b; bin_value o x y); Ok (py v))) as Hs.
    { intros x Hx k0. rewrite Hb, Hx. destruct (value x) as [v|]; [|reflexivity]. cbn [bind]. destruct (value b) as [w|]; [|reflexivity]. cbn [bind]. apply op_py. }
    cbn [tree]. rewrite Hw. destruct (compares o) eqn:Eo.
    + assert (left_prec o = 0%nat) as -> by (destruct o; try discriminate; reflexivity).
      assert (Nat.eqb (level (op_of o)) 0 = true) as El by (destruct o; try discriminate; reflexivity).
      specialize (Hs a IHa 0%nat) as Hsa. destruct a as [z| |a|m a|o' a m]; try (cbn [eval_ast tree awrap Nat.ltb Nat.leb]; rewrite El; exact Hsa).
      specialize (Hs m IHm (right_prec o')). specialize (IHa 0%nat). cbn [value]. rewrite Eo. cbn [andb]. cbn [value] in IHa, Hsa.
      change (tree 0 (Bin o' a m)) with (ABin (op_of o') (tree (left_prec o') a) (tree (right_prec o') m)) in *.
      change (eval_ast (ABin (op_of o) ?u ?w)) with (if Nat.eqb (level (op_of o)) 0 then (if Nat.eqb (level (op_of o')) 0 then do c <- eval_ast u; match c with VBool false => Ok (VBool false) | _ => do x <- eval_ast (tree (right_prec o') m); do y <- eval_ast w; apply_op (op_of o) x y end else do x <- eval_ast u; do y <- eval_ast w; apply_op (op_of o) x y) else do x <- eval_ast u; do y <- eval_ast w; apply_op (op_of o) x y).
      rewrite El. assert (Nat.eqb (level (op_of o')) 0 = compares o') as -> by (destruct o'; reflexivity). destruct (compares o'); [|exact Hsa]. rewrite IHa, Hs. set (va := match a with Bin _ _ _ => _ | _ => _ end). destruct va as [[x|[]|]|]; reflexivity.
    + assert (eval_ast (ABin (op_of o) (tree (left_prec o) a) (tree (right_prec o) b)) = (do x <- eval_ast (tree (left_prec o) a); do y <- eval_ast (tree (right_prec o) b); apply_op (op_of o) x y)) as -> by (destruct o; try discriminate; reflexivity).
      rewrite (Hs a IHa). cbn [value]. rewrite Eo. destruct a; reflexivity.
Qed.

(** ** Tokens *)
Definition token_text (t : token) : text :=
  match t with
  | TNum z => digits 10 z
  | TOp o => T match o with OLt => "<" | OGt => ">" | OAnd => "&" | OShl => "<<" | OShr => ">>" | OAdd => "+" | OSub => "-" | OMul => "*" | OFloorDiv => "//" | ODiv => "/" | OPow => "**" end
  | TLpar => T "("
  | TRpar => T ")"
  end.
Definition is_num (t : token) : bool := match t with TNum _ => true | _ => false end.
Definition is_op (t : token) : bool := match t with TOp _ => true | _ => false end.
(** Two tokens that may follow each other without merging *)
Definition adj (a b : token) : bool := negb (is_num a && is_num b) && negb (is_op a && is_op b && negb (match b with TOp OSub | TOp OAdd => true | _ => false end)).
Fixpoint adjacent (l : list token) : bool :=
  match l with
  | a :: (b :: _) as r => adj a b && adjacent r
  | _ => true
  end.
Lemma read_bound b s : forall acc v, 2 <= b -> read_digits b s acc = Some v -> v < (acc + 1) * b ^ zlen s.
Proof.
  induction s as [|c s IH]; intros acc v Hb; cbn [read_digits]; [intros [= <-]; rewrite zlen_nil; lia|].
  destruct (digit_val c) as [d|]; [|discriminate]. destruct (d <? b) eqn:Ed; [|discriminate]. zb. intros H. apply IH in H; [|exact Hb]. rewrite zlen_cons. pose proof (zlen_nonneg s).
  rewrite Z.pow_add_r by lia. rewrite Z.pow_1_r. assert (0 < b ^ zlen s) by (apply Z.pow_pos_nonneg; lia). nia.
Qed.
Lemma digits_zero z r : 0 <= z -> digits 10 z = "0"%char :: r -> z = 0.
Proof.
  intros Hz E. pose proof (digits_read 10 z ltac:(lia) Hz) as Hr. rewrite E in Hr. change (read_digits 10 r 0 = Some z) in Hr. destruct r as [|c r]; [cbn in Hr; congruence|].
  pose proof (read_bound 10 _ _ _ ltac:(lia) Hr) as Hb. rewrite Z.add_0_l, Z.mul_1_l in Hb. pose proof (zlen_nonneg r). rewrite zlen_cons in Hb.
  pose proof (digits_length 10 z (zlen r + 1) ltac:(lia) Hz ltac:(lia) ltac:(replace (zlen r + 1) with (1 + zlen r) by lia; exact Hb)) as Hl. rewrite E, !zlen_cons in Hl. lia.
Qed.
Lemma number_digits z : 0 <= z -> number_token (digits 10 z) = Ok [TNum z].
Proof.
  intros Hz. unfold number_token. pose proof (read_uint_digits 10 z ltac:(lia) Hz) as Hr. destruct (digits 10 z) as [|c r] eqn:E; [now apply digits_nonempty in E|]. rewrite Hr.
  destruct (Ascii.eqb_spec c "0"%char) as [->|]; [|reflexivity]. apply digits_zero in E; [|exact Hz]. subst z. reflexivity.
Qed.
Lemma lex_digits ds' : forall ds s, Forall (fun c => is_digit c = true) ds' -> lex ds (ds' ++ s) = lex (ds ++ ds') s.
Proof. induction ds' as [|c ds' IH]; intros ds s H; [now rewrite app_nil_r|]. inversion H as [|? ? Hc H']; subst. cbn [app lex]. rewrite Hc. rewrite IH by exact H'. now rewrite <- app_assoc. Qed.
Lemma digits_all z : 0 <= z -> Forall (fun c => is_digit c = true) (digits 10 z).
Proof.
  intros Hz. apply digits_Forall; [lia| |exact Hz]. intros d Hd. assert (d = 0 \/ d = 1 \/ d = 2 \/ d = 3 \/ d = 4 \/ d = 5 \/ d = 6 \/ d = 7 \/ d = 8 \/ d = 9) as H by lia.
  repeat (destruct H as [->|H]; [reflexivity|]). subst d. reflexivity.
Qed.
Definition nonneg (t : token) : Prop := match t with TNum z => 0 <= z | _ => True end.
Definition calm (s : text) : Prop := match s with c :: _ => is_digit c = true \/ c = "("%char \/ c = ")"%char \/ c = "-"%char \/ c = "+"%char | [] => True end.
Lemma lex_tok t ds s : is_num t = false -> (is_op t = true -> calm s) ->
  lex ds (token_text t ++ s) = (do n <- number_token ds; do l <- lex [] s; Ok (n ++ t :: l)).
Proof.
  intros Hn Hc. assert (forall c, In c (T "*/<>") -> forall (a b : res (list token)), calm s -> match s with d :: s' => if Ascii.eqb d c then b else a | [] => a end = a) as Hs.
  { intros c Hin a b. destruct s as [|d s']; [reflexivity|]. intros H. destruct (Ascii.eqb_spec d c) as [->|]; [exfalso|reflexivity]. cbn in H. cbn in Hin.
    destruct Hin as [<-|[<-|[<-|[<-|[]]]]]; destruct H as [H|[H|[H|[H|H]]]]; discriminate H. }
  destruct t as [z|o| |]; try discriminate; try reflexivity. specialize (Hc eq_refl).
  destruct o; try reflexivity; cbn [token_text T list_ascii_of_string app].
  - transitivity (match s with d :: s' => if Ascii.eqb d "<"%char then (do n <- number_token ds; do l <- lex [] s'; Ok (n ++ TOp OShl :: l)) else (do n <- number_token ds; do l <- lex [] s; Ok (n ++ TOp OLt :: l)) | [] => (do n <- number_token ds; do l <- lex [] s; Ok (n ++ TOp OLt :: l)) end).
    { cbn. destruct s; reflexivity. }
    destruct s as [|d s']; [reflexivity|]. cbn in Hc. destruct (Ascii.eqb_spec d "<"%char) as [->|]; [|reflexivity]. destruct Hc as [H|[H|[H|[H|H]]]]; discriminate H.
  - transitivity (match s with d :: s' => if Ascii.eqb d ">"%char then (do n <- number_token ds; do l <- lex [] s'; Ok (n ++ TOp OShr :: l)) else (do n <- number_token ds; do l <- lex [] s; Ok (n ++ TOp OGt :: l)) | [] => (do n <- number_token ds; do l <- lex [] s; Ok (n ++ TOp OGt :: l)) end).
    { cbn. destruct s; reflexivity. }
    destruct s as [|d s']; [reflexivity|]. cbn in Hc. destruct (Ascii.eqb_spec d ">"%char) as [->|]; [|reflexivity]. destruct Hc as [H|[H|[H|[H|H]]]]; discriminate H.
  - transitivity (match s with d :: s' => if Ascii.eqb d "*"%char then (do n <- number_token ds; do l <- lex [] s'; Ok (n ++ TOp OPow :: l)) else (do n <- number_token ds; do l <- lex [] s; Ok (n ++ TOp OMul :: l)) | [] => (do n <- number_token ds; do l <- lex [] s; Ok (n ++ TOp OMul :: l)) end).
    { cbn. destruct s; reflexivity. }
    destruct s as [|d s']; [reflexivity|]. cbn in Hc. destruct (Ascii.eqb_spec d "*"%char) as [->|]; [|reflexivity]. destruct Hc as [H|[H|[H|[H|H]]]]; discriminate H.
  - transitivity (match s with d :: s' => if Ascii.eqb d "/"%char then (do n <- number_token ds; do l <- lex [] s'; Ok (n ++ TOp OFloorDiv :: l)) else (do n <- number_token ds; do l <- lex [] s; Ok (n ++ TOp ODiv :: l)) | [] => (do n <- number_token ds; do l <- lex [] s; Ok (n ++ TOp ODiv :: l)) end).
    { cbn. destruct s; reflexivity. }
    destruct s as [|d s']; [reflexivity|]. cbn in Hc. destruct (Ascii.eqb_spec d "/"%char) as [->|]; [|reflexivity]. destruct Hc as [H|[H|[H|[H|H]]]]; discriminate H.
Qed.
Lemma calm_next t l : adjacent (t :: l) = true -> is_op t = true -> Forall nonneg l -> calm (flat_map token_text l).
Proof.
  intros Ha Ht Hn. destruct l as [|u l]; [exact I|]. cbn [adjacent] in Ha. apply andb_prop in Ha as [Ha _]. unfold adj in Ha. rewrite Ht in Ha. apply andb_prop in Ha as [_ Ha]. cbn [flat_map].
  destruct u as [z|o| |]; cbn [token_text]; [|destruct o; try discriminate; cbn; auto|cbn; auto..]. inversion Hn as [|? ? Hz _]; subst. cbn in Hz. pose proof (digits_all z Hz) as Hd. destruct (digits 10 z) as [|c r] eqn:E; [now apply digits_nonempty in E|].
  inversion Hd; subst. cbn. auto.
Qed.
Lemma lex_tokens l : forall ds n, adjacent l = true -> Forall nonneg l -> number_token ds = Ok n -> (match l with TNum _ :: _ => ds = [] | _ => True end) -> lex ds (flat_map token_text l) = Ok (n ++ l).
Proof.
  induction l as [|t l IH]; intros ds n Ha Hn Hds Hf; [cbn; now rewrite app_nil_r|]. inversion Hn as [|? ? Ht Hn']; subst.
  assert (adjacent l = true) as Ha' by (destruct l; [reflexivity|]; cbn [adjacent] in Ha; apply andb_prop in Ha; tauto).
  destruct (is_num t) eqn:Et.
  - destruct t as [z|o| |]; try discriminate. subst ds. injection Hds as <-. cbn [flat_map token_text]. rewrite lex_digits by (now apply digits_all). cbn [app].
    rewrite (IH (digits 10 z) [TNum z]); [reflexivity|exact Ha'|exact Hn'|now apply number_digits|]. destruct l as [|[z'|o| |] l']; try exact I. discriminate Ha.
  - cbn [flat_map]. rewrite lex_tok; [|exact Et|intros; eapply calm_next; eauto]. rewrite Hds. cbn [bind]. rewrite (IH [] []); [reflexivity|exact Ha'|exact Hn'|reflexivity|destruct l as [|[]]; auto].
Qed.
(** The tokens of an expression do not merge. *)
Lemma adjacent_app l1 a b l2 : adjacent (l1 ++ [a]) = true -> adjacent (b :: l2) = true -> adj a b = true -> adjacent ((l1 ++ [a]) ++ b :: l2) = true.
Proof.
  intros H1 H2 H3. induction l1 as [|x l1 IH]; [cbn [app adjacent]; rewrite H3; exact H2|]. destruct l1 as [|y l1].
  - cbn [app adjacent] in *. apply andb_prop in H1 as [H1 _]. rewrite H1, H3. exact H2.
  - cbn [app] in *. change (adj x y && adjacent (y :: l1 ++ [a]) = true) in H1. apply andb_prop in H1 as [Hx H1]. change (adj x y && adjacent (y :: (l1 ++ [a]) ++ b :: l2) = true). rewrite Hx. apply IH. exact H1.
Qed.
Definition ends_well (l : list token) : Prop := exists l' t, l = l' ++ [t] /\ is_op t = false /\ t <> TLpar.
Definition starts_well (l : list token) : Prop := match l with TNum _ :: _ => True | TLpar :: _ => True | TOp OSub :: _ | TOp OAdd :: _ => True | _ => False end.
Lemma toks_starts k e : starts_well (toks k e).
Proof. pose proof (toks_first e k) as H. destruct (toks k e) as [|[z|o| |] r]; try exact H. destruct o; exact H || exact I. Qed.
Lemma toks_ends e : forall k, ends_well (toks k e).
Proof.
  assert (forall b l, ends_well l -> ends_well (wrap b l)) as Hw.
  { intros [] l H; [|exact H]. exists (TLpar :: l), TRpar. repeat split; discriminate. }
  induction e as [z| |e IH|m e IH|o a IHa b IHb]; intros k; cbn [toks]; [exists [], (TNum z); repeat split; discriminate|exists [TLpar], TRpar; repeat split; discriminate|apply (Hw true); apply IH|..]; apply Hw.
  - destruct (IH 5%nat) as (l & t & -> & H). exists (TOp (sign_op m) :: l), t. split; [reflexivity|exact H].
  - destruct (IHb (right_prec o)) as (l & t & -> & H). exists (toks (left_prec o) a ++ TOp (op_of o) :: l), t. split; [now rewrite <- app_assoc|exact H].
Qed.
Lemma adjacent_join l1 l2 : adjacent l1 = true -> adjacent l2 = true -> (forall l a b r, l1 = l ++ [a] -> l2 = b :: r -> adj a b = true) -> adjacent (l1 ++ l2) = true.
Proof.
  intros H1 H2 H. destruct l2 as [|b l2]; [now rewrite app_nil_r|]. destruct l1 as [|x l1]; [exact H2|].
  destruct (@exists_last _ (x :: l1) ltac:(discriminate)) as (l & a & E). rewrite E in *. apply adjacent_app; eauto.
Qed.
Lemma toks_adjacent e : forall k, adjacent (toks k e) = true.
Proof.
  assert (forall l, adjacent l = true -> starts_well l -> ends_well l -> adjacent (TLpar :: l ++ [TRpar]) = true) as Hp.
  { intros l H1 H2 (l' & t & -> & H3 & H4). change (adjacent ([TLpar] ++ ((l' ++ [t]) ++ [TRpar])) = true). apply adjacent_join; [reflexivity| |].
    - apply adjacent_app; [exact H1|reflexivity|]. destruct t; try discriminate; try congruence; reflexivity.
    - intros l a b r E1 E2. assert (a = TLpar) as -> by (destruct l as [|? [|? ?]]; cbn in E1; congruence). destruct b; reflexivity. }
  assert (forall b l, adjacent l = true -> starts_well l -> ends_well l -> adjacent (wrap b l) = true) as Hw by (intros []; auto).
  induction e as [z| |e IH|m e IH|o a IHa b IHb]; intros k; cbn [toks]; [reflexivity|reflexivity|apply (Hw true); [apply IH|apply toks_starts|apply toks_ends]| |].
  - apply Hw; [|destruct m; exact I|]; [|destruct (toks_ends e 5) as (l & t & -> & H); exists (TOp (sign_op m) :: l), t; split; [reflexivity|exact H]].
    change (adjacent ([TOp (sign_op m)] ++ toks 5 e) = true). apply adjacent_join; [reflexivity|apply IH|]. intros l x y r E1 E2. assert (x = TOp (sign_op m)) as -> by (destruct l as [|? [|? ?]]; cbn in E1; congruence).
    pose proof (toks_starts 5 e) as H. rewrite E2 in H. destruct y as [?|o'| |]; try reflexivity. destruct o'; try contradiction; reflexivity.
  - apply Hw.
    + apply adjacent_join; [apply IHa| |].
      * change (adjacent ([TOp (op_of o)] ++ toks (right_prec o) b) = true). apply adjacent_join; [reflexivity|apply IHb|]. intros l x y r E1 E2. assert (x = TOp (op_of o)) as -> by (destruct l as [|? [|? ?]]; cbn in E1; congruence).
        pose proof (toks_starts (right_prec o) b) as H. rewrite E2 in H. destruct y as [?|o'| |]; try reflexivity. destruct o'; try contradiction; reflexivity.
      * intros l x y r E1 [= <- _]. destruct (toks_ends a (left_prec o)) as (l' & t & E & H & _). rewrite E in E1. apply app_inj_tail in E1 as [_ ->]. unfold adj. rewrite H. cbn. now rewrite andb_false_r.
    + pose proof (toks_starts (left_prec o) a) as H. destruct (toks (left_prec o) a) as [|x r]; [contradiction|exact H].
    + destruct (toks_ends b (right_prec o)) as (l & t & -> & H). exists (toks (left_prec o) a ++ TOp (op_of o) :: l), t. split; [now rewrite <- app_assoc|exact H].
Qed.
Lemma toks_nonneg e : all_leaves (fun z => 0 <= z) e -> forall k, Forall nonneg (toks k e).
Proof.
  assert (forall b l, Forall nonneg l -> Forall nonneg (wrap b l)) as Hw.
  { intros [] l H; [|exact H]. constructor; [exact I|]. apply Forall_app. split; [exact H|constructor; [exact I|constructor]]. }
  induction e as [z| |e IH|m e IH|o a IHa b IHb]; cbn [all_leaves]; intros H k; cbn [toks]; [constructor; [exact H|constructor]|repeat constructor|apply (Hw true); auto|..]; apply Hw.
  - constructor; [exact I|auto].
  - apply Forall_app. split; [apply IHa; tauto|]. constructor; [exact I|apply IHb; tauto].
Qed.
(** eval() of the written expression, with // for / *)
Definition python_text (e : expr Z) : text := flat_map token_text (toks 0 e).
Lemma eval_text e : all_leaves (fun z => 0 <= z) e -> py_eval (python_text e) = (do v <- value e; Ok (py v)).
Proof.
  intros H. destruct (proj1 (parse_toks e 0%nat ltac:(lia)) [] I) as (n & Hn). rewrite app_nil_r in Hn. unfold py_eval.
  rewrite (parse_text_ok _ (toks 0 e) (tree 0 e) n); [apply eval_tree| |exact Hn].
  unfold python_text. rewrite (lex_tokens _ [] []); [reflexivity|apply toks_adjacent|now apply toks_nonneg|reflexivity|destruct (toks 0 e) as [|[]]; auto].
Qed.
(** The exceptions of eval() *)
Definition eval_exn (e : exn) : Prop := e = ESyntaxError \/ e = ETypeError \/ e = EValueError \/ e = EZeroDivisionError \/ e = EUndefined.
Lemma lex_errors s : forall ds e, lex ds s = Err e -> e = ESyntaxError \/ e = EUndefined.
Proof.
  assert (forall ds e, number_token ds = Err e -> e = ESyntaxError) as Hn.
  { intros ds e0. unfold number_token. destruct ds as [|c r]; [discriminate|]. destruct (read_uint 10 _) as [v|]; [|congruence]. destruct (_ && _); congruence. }
  remember (List.length s) as k eqn:Hk. assert (List.length s <= k)%nat as Hle by lia. clear Hk. revert s Hle.
  induction k as [|k IH]; intros [|c s0] Hle ds e0; cbn [lex]; try (intros H; left; now eauto). cbn [List.length] in Hle.
  assert (forall t r, (forall e, r = Err e -> e = ESyntaxError \/ e = EUndefined) -> (do n <- number_token ds; do l <- r; Ok (n ++ t :: l)) = Err e0 -> e0 = ESyntaxError \/ e0 = EUndefined) as He.
  { intros t r Hr. destruct (number_token ds) as [n|e1] eqn:E; [|cbn [bind]; intros [= <-]; left; eauto]. cbn [bind]. destruct r as [l|e1]; [discriminate|]. cbn [bind]. intros [= <-]. auto. }
  destruct (is_digit c); [apply IH; lia|]. do 5 (match goal with |- context [Ascii.eqb c ?x] => destruct (Ascii.eqb c x) end; [apply He; apply IH; lia|]).
  do 4 (match goal with |- (if Ascii.eqb c ?x then _ else _) = _ -> _ => destruct (Ascii.eqb c x) end;
    [destruct s0 as [|d s1]; [apply He; apply (IH []); cbn; lia|cbn [List.length] in Hle; destruct (Ascii.eqb d c); [apply He; apply (IH s1); lia|apply He; apply (IH (d :: s1)); cbn; lia]]|]).
  intros [= <-]. auto.
Qed.
Definition bad (e : exn) : Prop := e = ETypeError \/ e = EValueError \/ e = EZeroDivisionError \/ e = EUndefined.
Lemma op_errors o x y e : apply_op o x y = Err e -> bad e.
Proof.
  intros H0. unfold bad. assert (e = ETypeError \/ exists u v, int_op o u v = Err e) as [->|(u & v & H1)].
  { destruct o, x, y; cbn [apply_op as_int] in H0; try discriminate H0; try (left; congruence); right; eauto. }
  { auto. }
  clear H0. destruct o; cbn [int_op] in H1; try discriminate H1.
  - destruct (v <? 0); [injection H1 as <-; auto|discriminate].
  - destruct (v <? 0); [injection H1 as <-; auto|discriminate].
  - destruct (v =? 0); [injection H1 as <-; auto|discriminate].
  - destruct (v =? 0); injection H1 as <-; auto.
  - destruct (0 <=? v); [discriminate|]. destruct (u =? 0); injection H1 as <-; auto.
Qed.
Lemma ast_errors a : (forall e, eval_ast a = Err e -> bad e) /\ (match a with ABin _ _ m => forall e, eval_ast m = Err e -> bad e | _ => True end).
Proof.
  assert (bad ETypeError) as Ht by (unfold bad; auto).
  assert (forall x (k : pyval -> res pyval) e0, (forall e, eval_ast x = Err e -> bad e) -> (forall v, k v = Err e0 -> bad e0) -> bind (eval_ast x) k = Err e0 -> bad e0) as Hb.
  { intros x k e0 H1 H2. destruct (eval_ast x) as [v|e1]; cbn [bind]; [apply H2|]. intros [= <-]. auto. }
  induction a as [z| |a [IH _]|m a [IH _]|o a [IHa IHm] b [IHb _]|f [IHf _] a [IHa _]|f [IHf _]]; (split; [|try exact I; try exact IHb]); intros e0; cbn [eval_ast]; try discriminate.
  - apply IH.
  - apply Hb; [exact IH|]. intros v. destruct (as_int v); [discriminate|]. now intros [= <-].
  - assert ((do x <- eval_ast a; do y <- eval_ast b; apply_op o x y) = Err e0 -> bad e0) as Hs.
    { apply Hb; [exact IHa|]. intros v. apply Hb; [exact IHb|]. intros w. apply op_errors. }
    destruct (Nat.eqb (level o) 0); [|exact Hs]. destruct a as [z| |a|m a|o' a m|f a|f]; try exact Hs. destruct (Nat.eqb (level o') 0); [|exact Hs].
    apply Hb; [exact IHa|]. intros v. assert ((do x0 <- eval_ast m; do y <- eval_ast b; apply_op o x0 y) = Err e0 -> bad e0) as Hs2.
    { apply Hb; [exact IHm|]. intros w. apply Hb; [exact IHb|]. intros u. apply op_errors. }
    destruct v as [?|[]|]; try exact Hs2. discriminate.
  - apply Hb; [exact IHf|]. intros v. apply Hb; [exact IHa|]. intros w. now intros [= <-].
  - apply Hb; [exact IHf|]. intros v. now intros [= <-].
Qed.
Lemma parse_text_errors s e : parse_text s = Err e -> e = ESyntaxError \/ e = EUndefined.
Proof.
  unfold parse_text. destruct (lex [] s) as [ts|e0] eqn:El; [|intros [= <-]; eapply lex_errors; exact El]. change (bind (Ok ts) ?k) with (k ts). cbv beta.
  assert (List.length ts * 12 + rank (Level 0) < S (List.length ts) * 20)%nat as Hl by (cbn [rank]; lia). revert Hl. generalize (S (List.length ts) * 20)%nat. intros fuel Hl.
  pose proof (parse_total fuel (Level 0) ts Hl (Nat.le_0_l 7)) as Ht. destruct (parse fuel (Level 0) ts) as [[a r]|e0]; cbn [bind fst snd]; [|intros [= <-]; auto]. destruct r; [discriminate|]. intros [= <-]. auto.
Qed.
Lemma eval_errors s e : py_eval s = Err e -> eval_exn e.
Proof.
  unfold py_eval, eval_exn. destruct (parse_text s) as [a|e0] eqn:E; cbn [bind].
  - intros H. apply ast_errors in H. unfold bad in H. tauto.
  - intros [= <-]. apply parse_text_errors in E. tauto.
Qed.
