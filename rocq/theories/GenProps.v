(** * GenProps: the generator of the table of prototypes (C111, C112) *)
From Coq Require Import ZArith List Ascii String Bool Sorted.
From Verif Require Import PyBase TabModel GenModel GenSpec GenProofs GenProofs2 GenProofs3 GenProofs4.
Import ListNotations.
Open Scope Z_scope.

(** The lines printed for a header (C111). *)
Theorem c111_generated : forall s ds, header s ds -> Forall good ds ->
  exists lines, codegen s = Ok lines /\ table_of ds lines.
Proof. exact codegen_table. Qed.
Print Assumptions c111_generated.
Example c111_generated_ex : header ex_header [ex_read; ex_getpid; ex_pipe] /\ Forall good [ex_read; ex_getpid; ex_pipe] /\ codegen ex_header = Ok ex_lines.
Proof. exact ex_header_ok. Qed.

(** The shipped table is what the generator prints for its declarations (C111). *)
Theorem c111_shipped : codegen (c_header BASE_PROTOTYPES) = Ok (table_lines BASE_PROTOTYPES).
Proof. exact shipped. Qed.
Print Assumptions c111_shipped.

(** Declarations in other words (C112). *)
Theorem c112_name_refuted : exists s, s = T "asmlinkage long sys_x(const char *hint);" /\
  codegen s = Ok [T """x"": (""long"", ("; T "    (""const char *hint"", """"),"; T ")),"].
Proof. exact (ex_intro _ _ (conj eq_refl hint)). Qed.
Print Assumptions c112_name_refuted.
Theorem c112_unnamed_refuted : exists s, s = T "asmlinkage long sys_sendto(int, unsigned);" /\
  codegen s = Ok [T """sendto"": (""long"", ("; T "    (""int"", """"),"; T "    ("""", ""unsigned""),"; T ")),"].
Proof. exact (ex_intro _ _ (conj eq_refl unnamed)). Qed.
Print Assumptions c112_unnamed_refuted.
Theorem c112_comma_refuted : exists s, s = T "asmlinkage long sys_x(int a , int b);" /\ codegen s = Err EAttributeError.
Proof. exact (ex_intro _ _ (conj eq_refl before_comma)). Qed.
Print Assumptions c112_comma_refuted.
