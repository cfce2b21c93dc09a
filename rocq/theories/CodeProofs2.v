(** * CodeProofs2: four instructions of the x86, and programs that are disassembled wrongly (C124). *)
From Coq Require Import ZArith List Ascii String Bool Lia.
From Verif Require Import PyBase PyFacts Platform TraceModel TraceSpec CodeSpec CodeProofs.
Import ListNotations.
Open Scope Z_scope.

Definition B (z : Z) : byte := z2b z.
(** NOP; MOV EAX, imm32; MOV DWORD [disp32], imm32; MOV QWORD [RSP+disp32], imm32 *)
Definition form (code : list byte) : option (Z * text) :=
  match code with
  | [] => None
  | b :: l =>
      if Ascii.eqb b (B 144) then Some (1, T "NOP")
      else if Ascii.eqb b (B 184) then Some (5, T "MOV EAX")
      else if Ascii.eqb b (B 199) then if starts_with [B 5] l then Some (10, T "MOV DWORD") else None
      else if Ascii.eqb b (B 72) then if starts_with [B 199; B 132; B 36] l then Some (12, T "MOV QWORD") else None
      else None
  end.
Definition four (a : Z) (code : list byte) : option instruction :=
  match form code with
  | Some (s, t) => if s <=? zlen code then Some (Instr a s t []) else None
  | None => None
  end.
Fixpoint decode_all (n : nat) (a : Z) (code : list byte) : list instruction :=
  match n, code with
  | O, _ | _, [] => []
  | S n, _ :: rest => match four a code with
                      | Some i => i :: decode_all n (a + in_size i) (skipn (Z.to_nat (in_size i)) code)
                      | None => Instr a 1 (T "DB") [] :: decode_all n (a + 1) rest
                      end
  end.
Definition decode4 (a : Z) (code : list byte) : list instruction := decode_all (List.length code) a code.
Lemma form_more code s t more : form code = Some (s, t) -> s <= zlen code -> 1 <= s /\ form (firstn (Z.to_nat s) code ++ more) = Some (s, t).
Proof.
  intros H Hs. destruct code as [|b l]; [discriminate|]. cbn [form] in H.
  destruct (Ascii.eqb b (B 144)) eqn:E1; [injection H as <- <-; split; [lia|]; change (Z.to_nat 1) with 1%nat; cbn [firstn app form]; now rewrite E1|].
  destruct (Ascii.eqb b (B 184)) eqn:E2; [injection H as <- <-; split; [lia|]; change (Z.to_nat 5) with 5%nat; cbn [firstn app form]; now rewrite E1, E2|].
  destruct (Ascii.eqb b (B 199)) eqn:E3.
  - destruct l as [|b1 l]; [discriminate|]. destruct (starts_with [B 5] (b1 :: l)) eqn:E5; [|discriminate]. injection H as <- <-. split; [lia|].
    change (Z.to_nat 10) with 10%nat. cbn [firstn app form]. rewrite E1, E2, E3. cbn [starts_with] in *. now rewrite E5.
  - destruct (Ascii.eqb b (B 72)) eqn:E4; [|discriminate]. destruct l as [|b1 [|b2 [|b3 l]]]; cbn [starts_with] in H; try (rewrite ?andb_false_r in H; discriminate).
    destruct (starts_with [B 199; B 132; B 36] (b1 :: b2 :: b3 :: l)) eqn:E5; cbn [starts_with] in E5; rewrite E5 in H; [|discriminate]. injection H as <- <-. split; [lia|].
    change (Z.to_nat 12) with 12%nat. cbn [firstn app form]. rewrite E1, E2, E3, E4. cbn [starts_with] in *. now rewrite E5.
Qed.
Lemma four_well : well_formed four.
Proof.
  intros a code i H. unfold four in H. destruct (form code) as [[s t]|] eqn:E; [|discriminate]. destruct (s <=? zlen code) eqn:Es; [|discriminate]. apply Z.leb_le in Es.
  injection H as <-. cbn [in_address in_size]. split; [reflexivity|]. destruct (form_more code s t [] E Es) as [H1 _]. split; [lia|]. intros more.
  destruct (form_more code s t more E Es) as [_ Hm]. unfold four. rewrite Hm. unfold zlen in *. rewrite app_length, firstn_length.
  destruct (s <=? _) eqn:El; [reflexivity|]. apply Z.leb_gt in El. lia.
Qed.
Lemma decode_enough : forall n k a code, (List.length code <= n)%nat -> (List.length code <= k)%nat -> decode_all n a code = decode_all k a code.
Proof.
  induction n as [|n IH]; intros k a code Hn Hk.
  - destruct code; [|cbn in Hn; lia]. destruct k; reflexivity.
  - destruct code as [|b code]; [destruct k; reflexivity|]. destruct k as [|k]; [cbn in Hk; lia|]. cbn [decode_all]. destruct (four a (b :: code)) as [i|] eqn:E.
    + destruct (four_well _ _ _ E) as (_ & Hs & _). f_equal. apply IH; rewrite skipn_length; cbn [List.length] in *; lia.
    + f_equal. apply IH; cbn [List.length] in *; lia.
Qed.
Lemma decode4_right : disassembles four decode4.
Proof.
  split.
  - intros a code i H. destruct (four_well _ _ _ H) as (_ & Hs & _). destruct code as [|b code]; [unfold zlen in Hs; cbn in Hs; lia|]. unfold decode4 at 1. cbn [List.length decode_all]. rewrite H. f_equal.
    apply decode_enough; [rewrite skipn_length; cbn [List.length]; lia|lia].
  - intros a code i rest H. unfold decode4 in H. destruct code as [|b code]; [discriminate|]. cbn [List.length decode_all] in H. destruct (four a (b :: code)) as [j|] eqn:E; injection H as <- <-.
    + now destruct (four_well _ _ _ E) as (_ & Hs & _).
    + cbn. unfold zlen. cbn. lia.
Qed.
(** A program given by the bytes from address 4096 on, NOPs elsewhere *)
Definition program (l : list Z) : Z -> byte := fun x => if 4096 <=? x then B (nth (Z.to_nat (x - 4096)) l 144) else B 144.
Definition reader (c : Z -> byte) : Z -> Z -> res (list byte) := fun a n => Ok (from c a (Z.to_nat n)).
Lemma reader_reads c : readable c (reader c).
Proof. intros a n _. reflexivity. Qed.
Definition long32 : list Z := [199; 5; 0; 0; 1; 0; 42; 0; 0; 0].
Definition long64 : list Z := [72; 199; 132; 36; 128; 0; 0; 0; 42; 0; 0; 0].
Lemma one_wrong_64 : exists one decode c read i j, well_formed one /\ disassembles one decode /\ readable c read /\ is_at one c 4096 i /\ in_size i = 12 /\
  snd (disassembleOne (host_disassembler linux_x86_64 decode) read (Ok 4096) None) = Ok j /\ in_size j = 1.
Proof.
  exists four, decode4, (program long64), (reader (program long64)). eexists. eexists. split; [exact four_well|]. split; [exact decode4_right|]. split; [apply reader_reads|].
  split; [exists 12%nat; vm_compute; reflexivity|]. split; [reflexivity|]. split; [vm_compute; reflexivity|reflexivity].
Qed.
Lemma one_wrong_32 : exists one decode c read i j, well_formed one /\ disassembles one decode /\ readable c read /\ is_at one c 4096 i /\ in_size i = 10 /\
  snd (disassembleOne (host_disassembler linux_i386 decode) read (Ok 4096) None) = Ok j /\ in_size j = 1.
Proof.
  exists four, decode4, (program long32), (reader (program long32)). eexists. eexists. split; [exact four_well|]. split; [exact decode4_right|]. split; [apply reader_reads|].
  split; [exists 10%nat; vm_compute; reflexivity|]. split; [reflexivity|]. split; [vm_compute; reflexivity|reflexivity].
Qed.
(** A breakpoint on MOV EAX: one byte was replaced *)
Definition moves : list Z := [184; 42; 0; 0; 0; 144].
Definition broken : Z -> byte := fun x => if x =? 4096 then B 204 else program moves x.
Lemma broken_memory : has_breakpoints (program moves) broken [(4096, [B 184])].
Proof.
  split.
  - intros b old H. cbn [dget] in H. destruct (b =? 4096) eqn:E; [|discriminate]. injection H as <-. apply Z.eqb_eq in E. subst b. reflexivity.
  - intros x Hx. unfold broken. destruct (x =? 4096) eqn:E; [|reflexivity]. apply Z.eqb_eq in E. subst x. exfalso. apply Hx. exists 4096, [B 184]. split; [reflexivity|]. unfold zlen. cbn. lia.
Qed.
Lemma where_wrong : exists one decode c m bps read l, well_formed one /\ disassembles one decode /\ has_breakpoints c m bps /\ readable m read /\
  are_at one c 4096 l /\ map in_text l = [T "MOV EAX"; T "NOP"] /\
  lines_of (fst (dumpCode_ linux_x86_64 (host_disassembler linux_x86_64 decode) read bps 4096 (Some 4101) None true)) =
    [T "CODE:"; T "0x0000000000001000| DB ()     * BREAKPOINT *"; T "0x0000000000001001| DB ()"; T "0x0000000000001002| DB ()"; T "0x0000000000001003| DB ()"; T "0x0000000000001004| DB ()"].
Proof.
  exists four, decode4, (program moves), broken, [(4096, [B 184])], (reader broken). eexists. split; [exact four_well|]. split; [exact decode4_right|]. split; [exact broken_memory|]. split; [apply reader_reads|].
  split; [|split].
  - eapply are_at_cons; [exists 5%nat; vm_compute; reflexivity|]. eapply are_at_cons; [exists 1%nat; vm_compute; reflexivity|]. constructor.
  - reflexivity.
  - vm_compute. reflexivity.
Qed.
(** A range that ends inside an instruction *)
Lemma range_wrong : exists one decode c read i, well_formed one /\ disassembles one decode /\ readable c read /\ is_at one c 4096 i /\ in_size i = 5 /\
  snd (disassemble (host_disassembler linux_x86_64 decode) read (Ok 0) (Some 4096) (Some 4097) None) = Ok [Instr 4096 1 (T "DB") []; Instr 4097 1 (T "DB") []].
Proof.
  exists four, decode4, (program moves), (reader (program moves)). eexists. split; [exact four_well|]. split; [exact decode4_right|]. split; [apply reader_reads|].
  split; [exists 5%nat; vm_compute; reflexivity|]. split; [reflexivity|]. vm_compute. reflexivity.
Qed.
(** Right: a breakpoint on a NOP *)
Definition nops : list Z := [144; 184; 42; 0; 0; 0; 144].
Definition broken_nop : Z -> byte := fun x => if x =? 4096 then B 204 else program nops x.
Lemma where_right : has_breakpoints (program nops) broken_nop [(4096, [B 144])] /\
  let l := [Instr 4096 1 (T "NOP") []; Instr 4097 5 (T "MOV EAX") []; Instr 4102 1 (T "NOP") []] in
  listing four (program nops) (Some 4103) 10 4096 l /\ Forall (legible 11 [(4096, [B 144])]) l.
Proof.
  split; [|split].
  - split.
    + intros b old H. cbn [dget] in H. destruct (b =? 4096) eqn:E; [|discriminate]. injection H as <-. apply Z.eqb_eq in E. subst b. reflexivity.
    + intros x Hx. unfold broken_nop. destruct (x =? 4096) eqn:E; [|reflexivity]. apply Z.eqb_eq in E. subst x. exfalso. apply Hx. exists 4096, [B 144]. split; [reflexivity|]. unfold zlen. cbn. lia.
  - apply listing_next; [exists 1%nat; reflexivity|intros (s & H & Hs); injection H as <-; cbn in Hs; lia|]. cbn [in_size].
    apply listing_next; [exists 5%nat; reflexivity|intros (s & H & Hs); injection H as <-; cbn in Hs; lia|]. cbn [in_size].
    apply listing_last; [exists 1%nat; reflexivity|]. exists 4103. split; [reflexivity|cbn; lia].
  - assert (forall x, covered [(4096, [B 144])] x -> x = 4096) as Hc.
    { intros x (b & old & H & Hx). cbn [dget] in H. destruct (b =? 4096) eqn:E; [|discriminate]. injection H as <-. apply Z.eqb_eq in E. unfold zlen in Hx. cbn in Hx. lia. }
    constructor; [unfold legible; cbn [in_address dget Z.eqb Pos.eqb in_size]; unfold zlen; cbn; lia|].
    constructor; [unfold legible; cbn; split; [lia|]; intros x Hx Hx2; apply Hc in Hx2; lia|].
    constructor; [unfold legible; cbn; split; [lia|]; intros x Hx Hx2; apply Hc in Hx2; lia|constructor].
Qed.
