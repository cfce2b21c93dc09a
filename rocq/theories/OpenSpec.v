(** * OpenSpec: which files stay open. *)
From Coq Require Import ZArith List Ascii String Bool.
From Verif Require Import PyBase PyInt Platform HostModel MapModel XrayModel OpenModel.
Import ListNotations.
Open Scope Z_scope.

(** No file is left open, nor is another file closed *)
Definition clean {A} (m : M A) : Prop := forall s, fst (m s) = s.
Definition fails {A} (r : res A) : Prop := forall a, r <> Ok a.

(** /proc/stat cannot be used: reading fails before the line of the boot time, or its number is not one *)
Definition is_btime (line : text) : Prop := exists rest, line = T "btime " ++ rest.
Definition boot_spoiled (zone : Z -> Z) (l : lines) : Prop :=
  (Forall (fun line => ~ is_btime line) (l_lines l) /\ l_error l <> None)
  \/ exists before rest after, l_lines l = before ++ (T "btime " ++ rest) :: after /\ Forall (fun line => ~ is_btime line) before
     /\ forall n, py_int 10 rest = Ok n -> fails (timestampUNIX zone n true).
(** As Linux writes it (fs/proc/stat.c) *)
Definition boot_line (n : Z) : text := T "btime " ++ str_int n ++ [z2b 10].

(** /proc/pid/status can be used: reading works, and the lines of the identifiers are numbers separated by tabs *)
Definition id_line (line : text) : Prop := (exists rest, line = T "Uid:" ++ rest) \/ (exists rest, line = T "Gid:" ++ rest).
Definition numbers (line : text) : Prop := Forall (fun w => exists n, py_int 10 w = Ok n) (split_char (z2b 9) (skipn 5 line)).
Definition good_status (l : lines) : Prop := l_error l = None /\ forall line, In line (l_lines l) -> id_line line -> numbers line.
(** As Linux writes the identifiers (fs/proc/array.c) *)
Definition ids_line (name : text) (a b c d : Z) : text :=
  name ++ [z2b 9] ++ str_int a ++ [z2b 9] ++ str_int b ++ [z2b 9] ++ str_int c ++ [z2b 9] ++ str_int d ++ [z2b 10].

(** ** /proc/pid/mem *)
(** The first read that can open the file, or not, decides: other exceptions of open() than OSError decide nothing *)
Definition decides (o : op) : Prop := exists size r data peek, o = Read size r data peek /\ (r = Ok tt \/ exists n, r = Err (EOSError n)).
Definition held (l : list op) : Prop :=
  exists before size data peek after, l = before ++ Read size (Ok tt) data peek :: after /\ Forall (fun o => ~ decides o) before /\ ~ In End after.
Definition mem_name (pid : text) : text := T "/proc/" ++ pid ++ T "/mem".
