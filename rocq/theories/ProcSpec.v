(** * ProcSpec: vocabulary for statements about the proc directory: what Linux writes in its files. *)
From Coq Require Import ZArith List Ascii String Bool.
From Verif Require Import PyBase PyInt RegexModel MapModel ProcModel.
Import ListNotations.
Open Scope Z_scope.

(** /proc/<pid>/stat: "%d (%s) %c" and numbers (fs/proc/array.c, do_task_stat) *)
Definition stat_line (pid : Z) (program : text) (state : ascii) (numbers : list Z) : text :=
  str_int pid ++ T " (" ++ program ++ T ") " ++ [state] ++ List.concat (map (fun n => T " " ++ str_int n) numbers) ++ [newline].
(** /proc/<pid>/cmdline and environ: every string is followed by a null byte. *)
Definition nul_terminated (l : list text) : list byte := List.concat (map (fun a => a ++ [NUL]) l).
(** /proc/<pid>/statm: numbers separated by spaces *)
Definition statm_line (numbers : list Z) : text := join (T " ") (map str_int numbers) ++ [newline].
(** The files are ASCII or, at least, decoded as they are; no carriage return in the text *)
Definition read_as (P : proc) (pid : Z) (key : text) (data : text) : Prop :=
  pc_file P pid key = Ok data /\ pc_decode P data = Ok data.
Definition no_cr (t : text) : Prop := ~ In CR t.

(** C22: the variables selected by [keep] *)
Fixpoint selected {A} (keep : list bool) (l : list A) : list A :=
  match keep, l with
  | true :: keep, x :: l => x :: selected keep l
  | false :: keep, _ :: l => selected keep l
  | _, _ => []
  end.
Definition total (l : list text) : Z := fold_right (fun t n => zlen t + n) 0 l.
(** A variable is kept exactly when it fits after the variables kept before it. *)
Definition first_fit (max : Z) (env : list text) (keep : list bool) : Prop :=
  List.length keep = List.length env /\
  forall i v, nth_error env i = Some v ->
    nth_error keep i = Some (total (selected (firstn i keep) (firstn i env)) + zlen v <=? max).

(** The lines "Uid:" and "Gid:" of /proc/<pid>/status (fs/proc/array.c, task_state): real, effective, saved, file system *)
Definition ids_line (title : text) (real effective saved fs : Z) : text :=
  title ++ T ":" ++ [TAB] ++ str_int real ++ [TAB] ++ str_int effective ++ [TAB] ++ str_int saved ++ [TAB] ++ str_int fs ++ [newline].
Definition other_line (line : text) : Prop :=
  (exists l, line = l ++ [newline] /\ ~ In newline l) /\ ~ In CR line /\ (forall r, line <> T "Uid:" ++ r) /\ (forall r, line <> T "Gid:" ++ r).
(** The line shown for a user or a group *)
Definition owner_line (title : text) (real effective : Z) : text :=
  title ++ T " identifier: " ++ str_int real ++ (if real =? effective then [] else T " (effective: " ++ str_int effective ++ T ")").
(** proc(5): the letters of the state of a process *)
Definition state_meaning (state : ascii) : option text :=
  if Ascii.eqb state "R"%char then Some (T "running")
  else if Ascii.eqb state "S"%char then Some (T "sleeping")
  else if Ascii.eqb state "D"%char then Some (T "disk")
  else if Ascii.eqb state "Z"%char then Some (T "zombie")
  else if Ascii.eqb state "T"%char then Some (T "traced")
  else if Ascii.eqb state "W"%char then Some (T "paging")
  else None.
