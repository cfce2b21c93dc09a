(** * MapSpec: vocabulary for statements about memory mappings. *)
From Coq Require Import ZArith List Ascii String Bool.
From Verif Require Import PyBase RegexModel MapModel.
Import ListNotations.
Open Scope Z_scope.

(** ** C18 *)
(** [pat] is at the offset [i] of [content]. *)
Definition occurs (pat content : list byte) (i : Z) : Prop :=
  exists before after, content = before ++ pat ++ after /\ zlen before = i.
(** Strictly increasing addresses, at least [n] apart *)
Fixpoint apart (n : Z) (l : list Z) : Prop :=
  match l with
  | [] => True
  | a :: l => Forall (fun b => a + n <= b) l /\ apart n l
  end.
(** Reading the mapping [start, start + |content|) gives [content]. *)
Definition reads (read : Z -> Z -> res (list byte)) (start : Z) (content : list byte) : Prop :=
  forall before middle after, content = before ++ middle ++ after -> read (start + zlen before) (zlen middle) = Ok middle.

(** ** C19: the line of /proc/<pid>/maps printed by Linux (fs/proc/task_mmu.c, show_vma_header_prefix) *)
Definition hexpad (width : nat) (n : Z) : text := padl width "0"%char (digits 16 n).
Definition maps_line (m : mapping) (pad : nat) : text :=
  hexpad 8 (mp_start m) ++ T "-" ++ hexpad 8 (mp_end m) ++ T " " ++ mp_permissions m ++ T " " ++
  hexpad 8 (mp_offset m) ++ T " " ++ hexpad 2 (mp_major m) ++ T ":" ++ hexpad 2 (mp_minor m) ++ T " " ++
  str_int (mp_inode m) ++ T " " ++
  match mp_pathname m with
  | Some name => repeat " "%char pad ++ name
  | None => []
  end ++ [newline].
Definition permission_char (c : ascii) : Prop := In c (T "rwxps-").
(** A name without newlines (the kernel writes \012), not starting or ending with white space *)
Definition plain_name (name : text) : Prop :=
  ~ In newline name /\ ~ In CR name /\
  (exists c r, name = c :: r /\ is_space c = false) /\ (exists r c, name = r ++ [c] /\ is_space c = false).
Definition plain_mapping (m : mapping) : Prop :=
  0 <= mp_start m /\ 0 <= mp_end m /\ 0 <= mp_offset m /\ 0 <= mp_inode m /\
  0 <= mp_major m < 4096 /\ 0 <= mp_minor m < 4096 /\
  List.length (mp_permissions m) = 4%nat /\ Forall permission_char (mp_permissions m) /\
  match mp_pathname m with Some name => plain_name name | None => True end.
