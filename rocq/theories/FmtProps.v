(** * FmtProps: C143 — format strings and their arguments. *)
From Coq Require Import ZArith List Ascii String.
From Verif Require Import PyBase FmtModel FmtSpec FmtCode FmtProofs.
Import ListNotations.
Open Scope Z_scope.

(** For every format made of text and conversions: % raises nothing exactly when the arguments are as many as the conversions (and stars) ask for, each of a right kind. *)
Theorem c143_percent : forall ps o, Forall wf ps -> (percent (flat_map piece_text ps) o = Ok tt <-> right_args ps (items o)).
Proof. exact percent_right. Qed.
Print Assumptions c143_percent.
(** A key, or another letter, is always an error. *)
Theorem c143_other : forall ps c rest o, Forall wf ps -> ~ In c (T "-+ #0123456789.*hlLdiouxXeEfFgGcrsa%") -> percent (flat_map piece_text ps ++ "%"%char :: c :: rest) o <> Ok tt.
Proof. exact percent_bad. Qed.
Print Assumptions c143_other.
(** No format of the project raises an exception, whatever the values are, if those that are known to be ints are. *)
Theorem c143_formats : forall u, In u formats -> forall o, Forall2 fits (u_args u) (items o) -> percent (u_format u) o = Ok tt.
Proof. exact format_use. Qed.
Print Assumptions c143_formats.
(** No other number of arguments works. *)
Theorem c143_length : forall u, In u formats -> forall o, percent (u_format u) o = Ok tt -> List.length (items o) = List.length (u_args u).
Proof. exact format_length. Qed.
Print Assumptions c143_length.
(** Where the right side is not written as a tuple, it would have to be one of one item: another tuple raises an exception. *)
Theorem c143_tuple : forall u l, In u formats -> u_tuple u = false -> (List.length l <> 1)%nat -> percent (u_format u) (Tuple l) <> Ok tt.
Proof. exact format_spread. Qed.
Print Assumptions c143_tuple.
(** dumpRegs(): the format that it makes for the names works, for all widths. *)
Theorem c143_names : forall n v, 0 <= n -> percent (T "%% %us") (One VInt) = Ok tt /\ percent (name_format n) (One v) = Ok tt.
Proof. exact dump_format. Qed.
Print Assumptions c143_names.
(** dumpProcessInfo(): the format of the environment works exactly for the variables with an equal sign. *)
Theorem c143_env_refuted : (exists item, env_format item = Err ETypeError) /\ forall item, env_format item = Ok tt <-> In "="%char item.
Proof. split; [exists (T "PATH"); reflexivity|exact env_ok]. Qed.
Print Assumptions c143_env_refuted.

(** strace.py 148 and ptrace/debugger/process.py 690, as pieces; one value too few, too many or of a wrong kind; 230 formats *)
Example c143_ex :
  let minus40s := Conv (C (T "-") (Some (Digits (T "40"))) None None "s") in
  let plus3i := Conv (C (T "+ ") (Some (Digits (T "3"))) None None "i") in let s := Conv (C [] None None None "s") in
  let p := [minus40s; Lit " "; Lit "="; Lit " "; s] in let q := map Lit (T "STACK") ++ [plus3i; Lit ":"; Lit " "; s] in
  flat_map piece_text p = T "%-40s = %s" /\ Forall wf p /\ flat_map piece_text q = T "STACK%+ 3i: %s"
  /\ percent (T "%-40s = %s") (Tuple [VOther; VOther]) = Ok tt /\ percent (T "%-40s = %s") (One VOther) = Err ETypeError
  /\ percent (T "%-40s = %s") (Tuple [VOther; VOther; VInt]) = Err ETypeError
  /\ percent (T "STACK%+ 3i: %s") (Tuple [VInt; VOther]) = Ok tt /\ percent (T "STACK%+ 3i: %s") (Tuple [VOther; VOther]) = Err ETypeError
  /\ percent (T "%.*f%%") (Tuple [VInt; VFloat]) = Ok tt /\ percent (T "100%") (Tuple []) = Err EValueError /\ percent (T "%y") (One VInt) = Err EValueError
  /\ percent (T "%(a)s") (One VInt) = Err ETypeError /\ percent (T "%x") (One VFloat) = Err ETypeError /\ percent (T "%c") (One VChar) = Ok tt
  /\ percent (T "%5.2ld %%") (One VInt) = Ok tt /\ percent (T "%5%") (One VInt) = Err EValueError /\ percent (T "%d") (One VChar) = Err ETypeError
  /\ List.length formats = 230%nat /\ In (U 148 (T "%-40s = %s") true [Any; Any]) formats /\ name_format 12 = T "% 12s" /\ env_format (T "HOME=/root") = Ok tt.
Proof.
  cbn zeta. repeat match goal with |- _ /\ _ => split end; try (vm_compute; reflexivity).
  - repeat apply Forall_cons; [..|apply Forall_nil]; cbn [wf]; try discriminate.
    + split; [|split; [|split; [|split]]]; cbn; try tauto.
      * constructor; [tauto|constructor].
      * split; [exists "4"%char, (T "0"); split; [reflexivity|discriminate]|repeat constructor].
    + split; [|split; [|split; [|split]]]; cbn; try tauto. constructor.
  - apply (nth_error_In formats 215). vm_compute. reflexivity.
Qed.
