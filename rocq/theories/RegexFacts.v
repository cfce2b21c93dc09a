From Coq Require Import ZArith List Ascii String Bool Lia.
From Verif Require Import PyBase PyFacts RegexModel.
Import ListNotations.

(** The text does not start with a character of [f]. *)
Definition stops (f : ascii -> bool) (s : text) : Prop := match s with c :: _ => f c = false | [] => True end.

Section Facts.
  Context {R : Type}.
  Implicit Types (k : pos -> caps -> option R).

  Lemma star_step f fuel x s b c k : f x = true -> star (mat (RSet f)) (S fuel) (b, x :: s) c k =
    match star (mat (RSet f)) fuel (x :: b, s) c k with Some r => Some r | None => k (b, x :: s) c end.
  Proof.
    intros Hx. change (star (mat (RSet f)) (S fuel) (b, x :: s) c k) with
      (match mat (RSet f) (b, x :: s) c (fun p' c' => if Nat.ltb (List.length (snd p')) (List.length (x :: s)) then star (mat (RSet f)) fuel p' c' k else None)
       with Some r => Some r | None => k (b, x :: s) c end).
    change (mat (RSet f) (b, x :: s) c ?K) with (if f x then K (x :: b, s) c else None). rewrite Hx. cbn beta. cbn [snd].
    replace (List.length s <? List.length (x :: s))%nat with true by (symmetry; apply Nat.ltb_lt; cbn; lia). reflexivity.
  Qed.
  Lemma star_set f ds : forall rest b c k r fuel, Forall (fun x => f x = true) ds -> stops f rest -> (List.length ds < fuel)%nat ->
    k (rev ds ++ b, rest) c = Some r -> star (mat (RSet f)) fuel (b, ds ++ rest) c k = Some r.
  Proof.
    induction ds as [|x ds IH]; intros rest b c k r fuel Hf Hs Hlen Hk; (destruct fuel as [|fuel]; [cbn in Hlen; lia|]).
    - cbn [star app rev mat snd fst] in *. destruct rest as [|y rest]; [exact Hk|]. cbn in Hs. rewrite Hs. exact Hk.
    - inversion Hf as [|? ? Hx Hf']; subst. cbn [app]. rewrite star_step by exact Hx.
      rewrite (IH rest (x :: b) c k r fuel Hf' Hs); [reflexivity|cbn in Hlen; lia|]. cbn [rev] in Hk. rewrite <- app_assoc in Hk. exact Hk.
  Qed.
  Lemma mat_star_set f ds rest b c k r : Forall (fun x => f x = true) ds -> stops f rest ->
    k (rev ds ++ b, rest) c = Some r -> mat (RStar (RSet f)) (b, ds ++ rest) c k = Some r.
  Proof. intros Hf Hs Hk. cbn [mat snd]. apply star_set; auto. rewrite app_length. lia. Qed.
  Lemma mat_plus_set f ds rest b c k r : ds <> [] -> Forall (fun x => f x = true) ds -> stops f rest ->
    k (rev ds ++ b, rest) c = Some r -> mat (rplus (RSet f)) (b, ds ++ rest) c k = Some r.
  Proof.
    intros Hn Hf Hs Hk. destruct ds as [|x ds]; [congruence|]. inversion Hf as [|? ? Hx Hf']; subst. unfold rplus. cbn [mat snd fst app]. rewrite Hx.
    change (mat (RStar (RSet f)) (x :: b, ds ++ rest) c k = Some r). apply mat_star_set; auto. cbn [rev] in Hk. rewrite <- app_assoc in Hk. exact Hk.
  Qed.
  Lemma firstn_part (ds rest : text) : firstn (List.length (ds ++ rest) - List.length rest) (ds ++ rest) = ds.
  Proof. rewrite app_length. replace (_ + _ - _)%nat with (List.length ds) by lia. now rewrite firstn_app, firstn_all, Nat.sub_diag, app_nil_r. Qed.
  (** A group that matches [ds] *)
  Lemma mat_group n a ds rest b c k r :
    (forall (k' : pos -> caps -> option R), k' (rev ds ++ b, rest) c = Some r -> mat a (b, ds ++ rest) c k' = Some r) ->
    k (rev ds ++ b, rest) (dset Nat.eqb n ds c) = Some r -> mat (RGroup n a) (b, ds ++ rest) c k = Some r.
  Proof. intros Ha Hk. cbn [mat]. apply Ha. cbn [snd]. now rewrite firstn_part. Qed.
  Lemma mat_char x rest b c k r : k (x :: b, rest) c = Some r -> mat (rchar x) (b, x :: rest) c k = Some r.
  Proof. intros Hk. unfold rchar. cbn [mat snd fst]. now rewrite Ascii.eqb_refl. Qed.
  Lemma mat_cat a1 a2 p c k r : mat a1 p c (fun p c => mat a2 p c k) = Some r -> mat (RCat a1 a2) p c k = Some r.
  Proof. auto. Qed.
  (** Exactly [n] characters *)
  Lemma mat_times f n : forall ds rest b c k r, List.length ds = n -> Forall (fun x => f x = true) ds ->
    k (rev ds ++ b, rest) c = Some r -> mat (rtimes n (RSet f)) (b, ds ++ rest) c k = Some r.
  Proof.
    induction n as [|n IH]; intros ds rest b c k r Hl Hf Hk.
    - destruct ds; [|discriminate]. exact Hk.
    - destruct ds as [|x ds]; [discriminate|]. inversion Hf as [|? ? Hx Hf']; subst. destruct n as [|n].
      + destruct ds; [|discriminate]. cbn [rtimes mat snd fst app]. rewrite Hx. exact Hk.
      + change (rtimes (S (S n)) (RSet f)) with (RCat (RSet f) (rtimes (S n) (RSet f))). cbn [mat snd fst app]. rewrite Hx. apply IH; [cbn in Hl; lia|exact Hf'|].
        cbn [rev] in Hk. rewrite <- app_assoc in Hk. exact Hk.
  Qed.
  (** At most [n] characters, as many as possible *)
  Lemma mat_upto f n : forall ds rest b c k r, (List.length ds <= n)%nat -> Forall (fun x => f x = true) ds -> stops f rest ->
    k (rev ds ++ b, rest) c = Some r -> mat (rupto n (RSet f)) (b, ds ++ rest) c k = Some r.
  Proof.
    induction n as [|n IH]; intros ds rest b c k r Hl Hf Hs Hk.
    - destruct ds; [|cbn in Hl; lia]. exact Hk.
    - cbn [rupto]. unfold ropt. cbn [mat snd fst]. destruct ds as [|x ds].
      + destruct rest as [|y rest]; cbn [app]; [exact Hk|]. cbn in Hs. rewrite Hs. exact Hk.
      + inversion Hf as [|? ? Hx Hf']; subst. cbn [app]. rewrite Hx.
        rewrite (IH ds rest (x :: b) c k r); [reflexivity|cbn in Hl; lia|exact Hf'|exact Hs|]. cbn [rev] in Hk. rewrite <- app_assoc in Hk. exact Hk.
  Qed.
  Lemma mat_range f m n ds rest b c k r : (m <= List.length ds <= n)%nat -> Forall (fun x => f x = true) ds -> stops f rest ->
    k (rev ds ++ b, rest) c = Some r -> mat (rrange m n (RSet f)) (b, ds ++ rest) c k = Some r.
  Proof.
    intros Hl Hf Hs Hk. unfold rrange. apply mat_cat. rewrite <- (firstn_skipn m ds), <- app_assoc.
    rewrite <- (firstn_skipn m ds) in Hf. apply Forall_app in Hf as [H1 H2].
    apply mat_times; [rewrite firstn_length; lia|exact H1|]. apply mat_upto; [rewrite skipn_length; lia|exact H2|exact Hs|].
    rewrite app_assoc, <- rev_app_distr, firstn_skipn. exact Hk.
  Qed.
End Facts.

(** ** White space *)
Lemma lstrip_spaces ws s : Forall (fun c => is_space c = true) ws -> lstrip (ws ++ s) = lstrip s.
Proof. induction 1 as [|c ws Hc _ IH]; [reflexivity|]. cbn. now rewrite Hc. Qed.
Lemma lstrip_none c s : is_space c = false -> lstrip (c :: s) = c :: s.
Proof. intros H. cbn. now rewrite H. Qed.
Lemma rstrip_spaces s c ws : is_space c = false -> Forall (fun c => is_space c = true) ws -> rstrip (s ++ [c] ++ ws) = s ++ [c].
Proof.
  intros Hc Hw. unfold rstrip. rewrite app_assoc, rev_app_distr. rewrite lstrip_spaces by now apply Forall_rev. rewrite rev_app_distr. cbn [rev app].
  rewrite lstrip_none by exact Hc. cbn [rev]. now rewrite rev_involutive.
Qed.
