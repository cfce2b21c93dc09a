(** * DecodeProps: C94, C95, the binding of libdistorm64. *)
From Coq Require Import ZArith List Ascii String Bool.
From Verif Require Import PyBase TraceModel DecodeModel DecodeSpec DecodeProofs DecodeProofs2.
Import ListNotations.
Open Scope Z_scope.

(** ** C94: Decode() gives every instruction, once, in order *)
Theorem c94_all : forall internal_decode one offset code fuel, sensible one -> decodes internal_decode one -> (List.length code < fuel)%nat ->
  Decode internal_decode fuel offset code = (all_instructions one offset code, DDone).
Proof. exact Decode_right. Qed.
Print Assumptions c94_all.
Theorem c94_consecutive : forall one offset code, sensible one -> consecutive offset (all_instructions one offset code).
Proof. exact all_consecutive. Qed.
Print Assumptions c94_consecutive.
Example c94_all_ex : sensible nop_one /\ decodes nop_decode nop_one /\
  List.length (fst (Decode nop_decode 251 4096 (repeat (z2b 144) 250))) = 250%nat /\ map di_offset (skipn 247 (fst (Decode nop_decode 251 4096 (repeat (z2b 144) 250)))) = [4343; 4344; 4345].
Proof. split; [exact nop_sensible|]. split; [exact nop_decodes|]. split; vm_compute; reflexivity. Qed.
(** A caller that keeps the instructions has them right up to 100 *)
Theorem c94_list_partial : forall internal_decode one offset code fuel, sensible one -> decodes internal_decode one -> (List.length (all_instructions one offset code) <= 100)%nat -> (0 < fuel)%nat ->
  Decode_list internal_decode fuel offset code = all_instructions one offset code.
Proof. exact list_right. Qed.
Print Assumptions c94_list_partial.
Example c94_list_ex : map di_offset (Decode_list nop_decode 4 16 (repeat (z2b 144) 3)) = [16; 17; 18].
Proof. reflexivity. Qed.
Theorem c94_list_refuted : exists internal_decode one code i j l, sensible one /\ decodes internal_decode one /\
  all_instructions one 0 code = i :: l /\ nth_error (all_instructions one 0 code) 100 = Some j /\ hd_error (Decode_list internal_decode (S (List.length code)) 0 code) = Some j /\ di_offset i = 0 /\ di_offset j = 100.
Proof. exact list_wrong. Qed.
Print Assumptions c94_list_refuted.
(** Whatever their number: as many as there are, but number i is the last one of those with numbers i modulo 100 *)
Theorem c94_list_kept : forall internal_decode one offset code fuel, sensible one -> decodes internal_decode one -> (List.length code < fuel)%nat ->
  let all := all_instructions one offset code in let n := List.length all in
  List.length (Decode_list internal_decode fuel offset code) = n /\
  forall i, (i < n)%nat -> exists k, (k < n)%nat /\ (n <= k + 100)%nat /\ (k mod 100 = i mod 100)%nat /\ nth_error (Decode_list internal_decode fuel offset code) i = nth_error all k.
Proof. exact list_kept. Qed.
Print Assumptions c94_list_kept.
Example c94_list_kept_ex : let l := Decode_list nop_decode 251 0 (repeat (z2b 144) 250) in map di_offset (firstn 2 (skipn 48 l)) = [248; 249] /\ map di_offset (firstn 2 (skipn 150 l)) = [150; 151].
Proof. split; vm_compute; reflexivity. Qed.
(** An instruction of size zero: no end *)
Theorem c94_zero_size : forall fuel internal_decode offset code i, internal_decode offset code MAX_INSTRUCTIONS = (DECRES_SUCCESS, [i]) -> di_size i = 0 -> code <> [] ->
  snd (Decode internal_decode fuel offset code) = DNever.
Proof. exact zero_size. Qed.
Print Assumptions c94_zero_size.

(** ** C95: the disassembler without distorm3 *)
Theorem c95_fails : forall internal_decode fuel code address i l e, Decode internal_decode fuel address code = (i :: l, e) -> disassembleOne_fallback internal_decode fuel code address = Err ETypeError.
Proof. exact fallback_fails. Qed.
Print Assumptions c95_fails.
Theorem c95_refuted : exists internal_decode one code, sensible one /\ decodes internal_decode one /\ all_instructions one 4096 code <> [] /\ disassembleOne_fallback internal_decode (S (List.length code)) code 4096 = Err ETypeError.
Proof. exact fallback_wrong. Qed.
Print Assumptions c95_refuted.
(** No instruction at all: PtraceError; code refused by the library: ValueError *)
Theorem c95_errors : forall internal_decode fuel code address e, Decode internal_decode fuel address code = ([], e) ->
  (e = DDone -> disassembleOne_fallback internal_decode fuel code address = Err (EPtraceError None)) /\
  (e = DValueError -> disassembleOne_fallback internal_decode fuel code address = Err EValueError).
Proof. exact fallback_errors. Qed.
Print Assumptions c95_errors.
Example c95_errors_ex : disassembleOne_fallback nop_decode 3 [] 4096 = Err (EPtraceError None) /\
  disassembleOne_fallback (fun _ _ _ => (DECRES_INPUTERR, [])) 3 [z2b 144] 4096 = Err EValueError.
Proof. split; reflexivity. Qed.
(** The result code of the library (C94): input refused, not enough memory (only an error if nothing was decoded), end *)
Theorem c94_result_codes : forall internal_decode fuel offset code r result, code <> [] -> internal_decode offset code MAX_INSTRUCTIONS = (r, result) ->
  (r = DECRES_INPUTERR -> Decode internal_decode (S fuel) offset code = ([], DValueError)) /\
  (r = DECRES_MEMORYERR -> result = [] -> Decode internal_decode (S fuel) offset code = ([], DMemoryError)) /\
  (r <> DECRES_INPUTERR -> r <> DECRES_MEMORYERR -> result = [] -> Decode internal_decode (S fuel) offset code = ([], DDone)) /\
  (r <> DECRES_INPUTERR -> result <> [] -> exists l e, Decode internal_decode (S fuel) offset code = (result ++ l, e)).
Proof. exact Decode_first. Qed.
Print Assumptions c94_result_codes.
Example c94_result_codes_ex : Decode (fun _ _ _ => (DECRES_MEMORYERR, [])) 3 0 [z2b 144] = ([], DMemoryError) /\ Decode (fun _ _ _ => (DECRES_SUCCESS, [])) 3 0 [z2b 144] = ([], DDone).
Proof. split; reflexivity. Qed.
