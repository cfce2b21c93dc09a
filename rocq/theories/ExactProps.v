(** * ExactProps: exact conditions for claims that do not always hold (C03, C09, C20, C21, C94, C97, C98). *)
From Coq Require Import ZArith List Ascii String.
From Verif Require Import PyBase PyInt Platform IntModel IntSpec RegModel RegSpec RegFinal RegexModel MapModel HostModel HostSpec HostProofs ProcModel ProcSpec DecodeModel DecodeSpec DecodeProofs ExactSpec ExactProofs.
Import ListNotations.
Open Scope Z_scope.

(** ** C03: on a big-endian host the bytes are reversed; the result is right for the same bytes in both orders only. *)
Theorem c03_big_endian_exact : forall b0 b1 b2 b3,
  (ntoh_ushort (host_value true [b0; b1]) = Ok (big_endian_value [b1; b0]) /\ (ntoh_ushort (host_value true [b0; b1]) = Ok (big_endian_value [b0; b1]) <-> b0 = b1))
  /\ ntoh_uint (host_value true [b0; b1; b2; b3]) = Ok (big_endian_value [b3; b2; b1; b0])
  /\ (ntoh_uint (host_value true [b0; b1; b2; b3]) = Ok (big_endian_value [b0; b1; b2; b3]) <-> b0 = b3 /\ b1 = b2).
Proof. exact (fun b0 b1 b2 b3 => conj (ntoh_big2 b0 b1) (ntoh_big4 b0 b1 b2 b3)). Qed.
Print Assumptions c03_big_endian_exact.
Example c03_big_endian_exact_ex : ntoh_ushort (host_value true [z2b 0; z2b 80]) = Ok 20480 /\ ntoh_uint (host_value true [z2b 1; z2b 2; z2b 2; z2b 1]) = Ok (big_endian_value [z2b 1; z2b 2; z2b 2; z2b 1]).
Proof. split; reflexivity. Qed.

(** ** C09: a part that does not begin with bit 0 (ah..dh and the flags but cf): the new bits are added to the old ones, and the low bits of the register are cleared. *)
Theorem c09_high_exact : forall K p s name main lo w sz old v,
  is_intel (p_cpu p) = true -> rk_get K = None -> (forall r, rk_set K r = None) -> whole p (r_regs s) ->
  In (name, (main, lo, w)) (intel_parts p) -> lo <> 0 -> reg_holds p (r_regs s) main sz old ->
  exists s' new, setreg K p name v s = (s', Ok tt) /\ reg_holds p (r_regs s') main sz new /\
    (forall i, 0 <= i < 8 * sz -> Z.testbit new i = ((if i <? w then false else Z.testbit old i) || ((lo <=? i) && (i <? lo + w) && Z.testbit v (i - lo)))%bool) /\
    snd (getreg K p name s') = Ok (Z.lor (bits old lo w) (v mod 2 ^ w)) /\
    forall n sz' x, n <> main -> reg_holds p (r_regs s) n sz' x -> reg_holds p (r_regs s') n sz' x.
Proof. exact set_high. Qed.
Print Assumptions c09_high_exact.
Example c09_high_exact_ex : let s := with_reg linux_x86_64 (T "rax") 0xabcd in let s' := fst (setreg good_kernel linux_x86_64 (T "ah") 0x12 s) in
  In (T "ah", (T "rax", 8, 8)) (intel_parts linux_x86_64) /\ snd (getreg good_kernel linux_x86_64 (T "rax") s') = Ok 0xbb00 /\ snd (getreg good_kernel linux_x86_64 (T "ah") s') = Ok (Z.lor 0xab 0x12).
Proof. cbn zeta. split; [vm_compute; tauto|]. split; vm_compute; reflexivity. Qed.

(** ** C20: the name of the program is as it is read in text mode, so right exactly without carriage return; the other fields are always right. *)
Theorem c20_file_exact : forall P pid program state numbers, is_space state = false -> state <> ")"%char -> (19 <= List.length numbers)%nat ->
  read_as P pid (T "stat") (stat_line pid program state numbers) ->
  exists read, as_read program read /\ (read = program <-> no_cr program) /\
  readProcessStat P pid =
    Ok (PState pid read [state] (nth 0 numbers 0) (nth 1 numbers 0) (nth 2 numbers 0) (nth 3 numbers 0) (nth 4 numbers 0)
               (nth 10 numbers 0) (nth 11 numbers 0) (nth 18 numbers 0)).
Proof. exact stat_exact. Qed.
Print Assumptions c20_file_exact.

(** ** C21: every string is as it is read in text mode; the list is right exactly without carriage returns. *)
Theorem c21_list_exact : forall P pid key args, Forall (fun a => ~ In NUL a) args -> read_as P pid key (nul_terminated args) ->
  (exists l, readProcessProcList P pid key = Ok l /\ Forall2 as_read args l) /\ (readProcessProcList P pid key = Ok args <-> Forall no_cr args).
Proof. exact list_exact. Qed.
Print Assumptions c21_list_exact.
(** The relation is a function, and gives the text itself when there is no carriage return. *)
Theorem c21_read_unique : forall s, (forall t u, as_read s t -> as_read s u -> t = u) /\ (as_read s s <-> no_cr s).
Proof. exact read_unique. Qed.
Print Assumptions c21_read_unique.
Example c21_read_ex : as_read ([CR; newline] ++ T "a" ++ [CR; CR] ++ T "b") ([newline] ++ T "a" ++ [newline; newline] ++ T "b").
Proof. apply newlines_read. vm_compute. reflexivity. Qed.

(** ** C97: the width is read as a signed number: right exactly below 32768. *)
Theorem c97_width_exact : forall rows cols, 0 <= rows < 65536 -> 0 <= cols < 65536 ->
  terminalWidth (le16 rows ++ le16 cols) = Ok (if cols <? 32768 then cols else cols - 65536) /\ (terminalWidth (le16 rows ++ le16 cols) = Ok cols <-> cols < 32768).
Proof. exact (fun rows cols R C => conj (width_all rows cols R C) (width_exact rows cols R C)). Qed.
Print Assumptions c97_width_exact.
Example c97_width_exact_ex : terminalWidth (le16 24 ++ le16 40000) = Ok (-25536).
Proof. reflexivity. Qed.

(** ** C98: the local date is right exactly when the zone has the offset it had on 1 January 1970. *)
Theorem c98_local_exact : forall zone value, 0 <= value <= 2147483647 -> Z.abs (zone 0) <= 86400 -> (timestampUNIX zone value true = Ok (local_date zone value) <-> zone value = zone 0).
Proof. exact date_exact. Qed.
Print Assumptions c98_local_exact.

(** ** C94: the list of the kept instructions is the one that was iterated over for at most 100 instructions only. *)
Theorem c94_list_exact : forall internal_decode one offset code fuel, sensible one -> decodes internal_decode one -> (List.length code < fuel)%nat ->
  (Decode_list internal_decode fuel offset code = fst (Decode internal_decode fuel offset code) <-> (List.length (all_instructions one offset code) <= 100)%nat).
Proof. exact kept_exact. Qed.
Print Assumptions c94_list_exact.
Example c94_list_exact_ex : List.length (all_instructions nop_one 7 (repeat (z2b 144) 100)) = 100%nat /\ List.length (all_instructions nop_one 7 (repeat (z2b 144) 101)) = 101%nat.
Proof. split; vm_compute; reflexivity. Qed.
