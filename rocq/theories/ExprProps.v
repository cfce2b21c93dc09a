(** * ExprProps: theorems about the expressions of the debuggers (C43, C44). *)
From Coq Require Import ZArith List Ascii String Bool Lia.
From Verif Require Import PyBase PyFacts PyIntFacts Platform IntModel IntProofs RegexModel PyEval ExprModel ExprSpec ExprProofs2 ExprProofs3.
Import ListNotations.
Open Scope Z_scope.

(** ** C43 *)
(** Whatever the text and the registers, only texts of digits, parentheses and operators are given to eval(). *)
Theorem c43_safe : forall eval1 eval2 getreg s, (forall t, safe_text t -> eval1 t = eval2 t) ->
  parseExpression eval1 getreg s = parseExpression eval2 getreg s.
Proof. exact parseExpression_safe. Qed.
Print Assumptions c43_safe.
(** An expression of numbers and registers has the value of arithmetic. *)
Theorem c43_value : forall getreg reg s e, lower (strip s) = print literal_text 0 e ->
  all_leaves literal_ok e -> all_leaves names_ok e -> all_leaves (known getreg reg) e ->
  parseExpression py_eval getreg s = do v <- value (map_leaves (literal_value reg) e); Ok (py v).
Proof. exact parseExpression_value. Qed.
Print Assumptions c43_value.
(** Whatever eval() does, a text is accepted only if it consists of letters, digits, underscores, parentheses and operators. *)
Theorem c43_accepts : forall eval getreg s v, parseExpression eval getreg s = Ok v ->
  s <> [] /\ Forall (fun c => (is_lower c || is_digit c || Ascii.eqb c "_"%char = true) \/ is_digit c = true \/ In c (T "()<>+*/&-")) (lower (strip s)).
Proof. exact parseExpression_accepts. Qed.
Print Assumptions c43_accepts.
(** The errors: ValueError, the errors of getreg(), and errors of the arithmetic *)
Theorem c43_errors_partial : forall getreg s e, parseExpression py_eval getreg s = Err e ->
  e = EValueError \/ e = ETypeError \/ e = EZeroDivisionError \/ e = EUndefined \/ exists name, getreg name = Err e.
Proof. exact parseExpression_errors. Qed.
Print Assumptions c43_errors_partial.
(** Whatever eval() does: an error is ValueError, or comes from getreg(), or from eval() on a safe text and is no SyntaxError. *)
Theorem c43_origin : forall eval getreg s e, parseExpression eval getreg s = Err e ->
  e = EValueError \/ (exists name, getreg name = Err e) \/ exists t, safe_text t /\ eval t = Err e /\ e <> ESyntaxError.
Proof. exact parseExpression_origin. Qed.
Print Assumptions c43_origin.
(** The documentation says that the errors are ValueError, and that the value is an integer: neither holds. *)
Theorem c43_value_error_refuted : exists getreg s, parseExpression py_eval getreg s = Err EZeroDivisionError.
Proof. exists (fun _ => Err EProcessError), (T "1/0"). vm_compute. reflexivity. Qed.
Print Assumptions c43_value_error_refuted.
Theorem c43_type_error_refuted : exists getreg s, parseExpression py_eval getreg s = Err ETypeError.
Proof. exists (fun _ => Err EProcessError), (T "()+1"). vm_compute. reflexivity. Qed.
Print Assumptions c43_type_error_refuted.
Theorem c43_integer_refuted : exists getreg s v, parseExpression py_eval getreg s = Ok v /\ forall n, v <> VInt n.
Proof. exists (fun _ => Err EProcessError), (T "1<2"), (VBool true). split; [vm_compute; reflexivity|discriminate]. Qed.
Print Assumptions c43_integer_refuted.
(** Neighbouring literals merge: a number followed by a register is one number. *)
Theorem c43_merge_refuted : exists getreg s, getreg (T "eax") = Ok 5 /\ s = T "2eax" /\ parseExpression py_eval getreg s = Ok (VInt 25).
Proof. exists (fun _ => Ok 5), (T "2eax"). vm_compute. auto. Qed.
Print Assumptions c43_merge_refuted.
Example c43_ex : parseExpression py_eval (fun r => if text_eqb r (T "eax") then Ok 7 else Err EProcessError) (T " (EAX+0x10)*2/3-1 ") = Ok (VInt 14) /\
  lower (strip (T " (EAX+0x10)*2/3-1 ")) = print literal_text 0 (Bin BSub (Bin BDiv (Bin BMul (Bin BAdd (Leaf (Reg (T "eax"))) (Leaf (Hex 16))) (Leaf (Dec 2))) (Leaf (Dec 3))) (Leaf (Dec 1))).
Proof. vm_compute. auto. Qed.

(** Comparisons, chained comparisons, signs, superfluous parentheses and the empty tuple *)
Example c43_compare_ex : parseExpression py_eval (fun r => Ok 3) (T "1<+EAX>((2))") = Ok (VBool true) /\
  lower (strip (T "1<+EAX>((2))")) = print literal_text 0 (Bin BGt (Bin BLt (Leaf (Dec 1)) (Sign false (Leaf (Reg (T "eax"))))) (Paren (Paren (Leaf (Dec 2))))) /\
  parseExpression py_eval (fun r => Ok 3) (T "()*(1<2)") = Ok VTuple /\ T "()*(1<2)" = print literal_text 0 (Bin BMul Empty (Bin BLt (Leaf (Dec 1)) (Leaf (Dec 2)))).
Proof. vm_compute. auto. Qed.

(** ** C44 *)
(** A text of the form of an expression denotes its value, as a word. *)
Theorem c44_value : forall p getreg reg read e s, all_leaves gdb_ok e -> all_leaves (gdb_known getreg reg) e ->
  lower (strip s) = print gdb_text 0 e ->
  parseInteger p py_eval getreg read s = do v <- value (map_leaves (gdb_value reg) e); do n <- number v; Ok (n mod 2 ^ wbits p).
Proof. exact parseInteger_value_mod. Qed.
Print Assumptions c44_value.
(** After an asterisk it is the address of the word that is read. *)
Theorem c44_pointer : forall p getreg reg read e s, all_leaves gdb_ok e -> all_leaves (gdb_known getreg reg) e ->
  lower (strip s) = T "*" ++ print gdb_text 0 e ->
  parseInteger p py_eval getreg read s = do v <- value (map_leaves (gdb_value reg) e); do n <- number v; read (n mod 2 ^ wbits p).
Proof. exact parseInteger_pointer_mod. Qed.
Print Assumptions c44_pointer.
(** Whatever eval() does, the result is a word, or was read at an address that is a word. *)
Theorem c44_word : forall p eval getreg read s v, parseInteger p eval getreg read s = Ok v ->
  0 <= v < 2 ^ wbits p \/ exists a, 0 <= a < 2 ^ wbits p /\ read a = Ok v.
Proof. exact parseInteger_result. Qed.
Print Assumptions c44_word.
Theorem c44_safe : forall p eval1 eval2 getreg read s, (forall t, safe_text t -> eval1 t = eval2 t) ->
  parseInteger p eval1 getreg read s = parseInteger p eval2 getreg read s.
Proof. exact parseInteger_safe. Qed.
Print Assumptions c44_safe.
Theorem c44_accepts : forall p eval getreg read s v, parseInteger p eval getreg read s = Ok v ->
  s <> [] /\ Forall (fun c => (is_lower c || is_digit c || Ascii.eqb c "_"%char = true) \/ c = "$"%char \/ is_digit c = true \/ In c (T "()<>+*/&-")) (lower (strip s)).
Proof. exact parseInteger_accepts. Qed.
Print Assumptions c44_accepts.
Theorem c44_errors : forall p getreg read s e, parseInteger p py_eval getreg read s = Err e ->
  e = EValueError \/ e = ETypeError \/ e = EZeroDivisionError \/ e = EUndefined \/ (exists name, getreg name = Err e) \/ exists a, read a = Err e.
Proof. exact parseInteger_errors. Qed.
Print Assumptions c44_errors.
(** The same, and an error may come from the reading of the word, or a tuple is no number. *)
Theorem c44_origin : forall p eval getreg read s e, parseInteger p eval getreg read s = Err e ->
  e = EValueError \/ (exists name, getreg name = Err e) \/ (exists a, 0 <= a < 2 ^ wbits p /\ read a = Err e) \/
  exists t, safe_text t /\ (eval t = Err e /\ e <> ESyntaxError \/ eval t = Ok VTuple /\ e = ETypeError).
Proof. exact parseInteger_origin. Qed.
Print Assumptions c44_origin.
(** A list of words denotes the list of their values, the first error wins. *)
Theorem c44_list : forall p eval getreg read sep ws tail, is_space sep = true -> Forall word ws -> Forall (fun c => is_space c = true) tail ->
  parseIntegers p eval getreg read (List.concat (map (fun w => sep :: w) ws) ++ tail) = mapM (parseInteger p eval getreg read) ws.
Proof. exact parseIntegers_words. Qed.
Print Assumptions c44_list.
(** A decimal number directly before a letter of a hexadecimal digit is read as a hexadecimal number. *)
Theorem c44_merge_refuted : exists p getreg read s, s = T "12a" /\ parseInteger p py_eval getreg read s = Ok 298.
Proof. exists linux_x86_64, (fun _ => Err EProcessError), (fun _ => Err EProcessError), (T "12a"). vm_compute. auto. Qed.
Print Assumptions c44_merge_refuted.
Example c44_ex : parseInteger linux_x86_64 py_eval (fun r => if text_eqb r (T "rsp") then Ok 4096 else Err EProcessError) (fun a => Ok (a * 2)) (T "*$RSP-0x10+1f") = Ok 8222 /\
  lower (strip (T "*$RSP-0x10+1f")) = T "*" ++ print gdb_text 0 (Bin BAdd (Bin BSub (Leaf (GLit (Reg (T "rsp")))) (Leaf (GLit (Hex 16)))) (Leaf (GBare 31))).
Proof. vm_compute. auto. Qed.
