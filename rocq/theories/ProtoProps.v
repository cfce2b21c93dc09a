(** * ProtoProps: C116, the shipped prototypes against linux/syscalls.h. *)
From Coq Require Import ZArith List Ascii String Bool.
From Verif Require Import PyBase TabModel GenModel GenSpec ProtoSpec ProtoProofs.
Import ListNotations.
Open Scope Z_scope.

(** What the generator prints for the header of the kernel is the shipped table: every call, type and name. *)
Theorem c116_from_header : codegen syscalls_h = Ok (table_lines (map as_declared BASE_PROTOTYPES)).
Proof. exact from_header. Qed.
Print Assumptions c116_from_header.
Example c116_ex :
  In (T "move_pages", (T "long", [(T "pid_t", T "pid"); (T "unsigned long", T "nr_pages"); (T "const void * *", T "pages");
     (T "const int *", T "nodes"); (T "int *", T "status"); (T "int", T "flags")])) BASE_PROTOTYPES /\
  contains (T "sys_move_pages(pid_t pid, unsigned long nr_pages, const void __user * __user *pages,") syscalls_h = true.
Proof. split; [refine (proj1 (find_some (fun e => text_eqb (fst e) (T "move_pages")) BASE_PROTOTYPES _)); vm_compute; reflexivity|vm_compute; reflexivity]. Qed.
