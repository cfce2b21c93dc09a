(** * DocSpec: what the examples of a docstring are, what it means that they are right, and the calendar. *)
From Coq Require Import ZArith List Ascii String Bool.
From Verif Require Import PyBase DocModel.
Import ListNotations.
Open Scope Z_scope.

(** A docstring is made of lines of prose and of examples: lines typed at the prompt, lines shown *)
Inductive piece : Type := Prose (line : text) | Shown (indent : nat) (first : text) (more : list text) (out : list text).
Definition typed (indent : nat) (prompt : string) (line : text) : text :=
  List.repeat " "%char indent ++ T prompt ++ match line with [] => [] | _ => " "%char :: line end.
Definition written_lines (p : piece) : list text :=
  match p with
  | Prose line => [line]
  | Shown indent first more out => typed indent ">>>" first :: map (typed indent "...") more ++ map (fun line => List.repeat " "%char indent ++ line) out
  end.
Definition begins_with (mark : string) (line : text) : Prop := exists n rest, line = List.repeat " "%char n ++ T mark ++ rest.
Definition empty_line (line : text) : Prop := exists n, line = List.repeat " "%char n.
(** The lines shown are no prompts and none is empty; prose has no prompt, and an empty line is between an example and prose *)
Definition separate (p : piece) (rest : list piece) : Prop :=
  match p, rest with Shown _ _ _ _, Prose line :: _ => empty_line line | _, _ => True end.
Definition plain (p : piece) : Prop :=
  match p with
  | Prose line => ~ begins_with ">>>" line
  | Shown _ _ _ out => (forall line, In line out -> ~ begins_with ">>>" line /\ ~ empty_line line) /\ (forall line, hd_error out = Some line -> ~ begins_with "..." line)
  end.
Fixpoint well_written (l : list piece) : Prop :=
  match l with [] => True | p :: l => plain p /\ separate p l /\ well_written l end.
Definition one_line (line : text) : Prop := ~ In (z2b 10) line.
Definition reads (doc : text) (l : list piece) : Prop :=
  l <> [] /\ well_written l /\ (forall p line, In p l -> In line (written_lines p) -> one_line line) /\ doc = join [z2b 10] (flat_map written_lines l).
Definition shown_of (l : list piece) : list (list text * list text) :=
  flat_map (fun p => match p with Prose _ => [] | Shown _ first more out => [(first :: more, out)] end) l.

(** The module of this path below a package *)
Inductive mod_at : pymod -> list text -> pymod -> Prop :=
| at_here m : mod_at m [] m
| at_below name members before c m after path m' : ~ In c (map fst before) -> mod_at m path m' ->
    mod_at (Mod name members (before ++ (c, m) :: after)) (c :: path) m'.
(** The examples of the members that the module defines print what their documentation shows *)
Definition right_examples (exec : text -> text -> nat -> list text -> list text) (m : pymod) : Prop :=
  forall x doc l i src out, In x (mod_members m) -> m_home x = mod_name m -> m_doc x = Some doc -> reads doc l -> nth_error (shown_of l) i = Some (src, out) ->
    exec (mod_name m) (m_name x) i src = out.
Definition readable (m : pymod) : Prop := forall x doc, In x (mod_members m) -> m_home x = mod_name m -> m_doc x = Some doc -> exists l, reads doc l.
(** import of the module with these components *)
Definition imports (import : list text -> text -> res pymod) (sys_path : list text) (name : text) (m : pymod) : Prop :=
  exists top c path, import sys_path name = Ok top /\ name = join (T ".") (c :: path) /\ (forall c', In c' (c :: path) -> ~ In "."%char c') /\ mod_at top path m.
Definition first_line (name : text) : text := T "--- Test module " ++ name.
Definition last_line : text := T "--- End of test".
Definition tested_modules : list text :=
  map T ["ptrace.ctypes_tools"; "ptrace.debugger.parse_expr"; "ptrace.logging_tools"; "ptrace.signames"; "ptrace.syscall.socketcall"; "ptrace.tools"]%string.
Definition report (names : list text) : list text := flat_map (fun n => [first_line n; last_line]) names.

(** ** The Gregorian calendar *)
Definition leap_year (y : Z) : bool := if y mod 400 =? 0 then true else if y mod 100 =? 0 then false else y mod 4 =? 0.
Definition month_lengths (y : Z) : list Z := [31; if leap_year y then 29 else 28; 31; 30; 31; 30; 31; 31; 30; 31; 30; 31].
Definition sum (l : list Z) : Z := fold_right Z.add 0 l.
(** days from 0001-01-01 to the first day of the year *)
Definition days_before_year (y : Z) : Z := 365 * (y - 1) + (y - 1) / 4 - (y - 1) / 100 + (y - 1) / 400.
Record moment : Type := Moment { year : Z; month : Z; day : Z; hour : Z; minute : Z; second : Z; micro : Z }.
Definition exists_moment (t : moment) : Prop :=
  1 <= year t <= 9999 /\ 1 <= month t <= 12 /\ 1 <= day t <= nth (Z.to_nat (month t - 1)) (month_lengths (year t)) 0 /\
  0 <= hour t < 24 /\ 0 <= minute t < 60 /\ 0 <= second t < 60 /\ 0 <= micro t < 1000000.
Definition day_number (t : moment) : Z := days_before_year (year t) + sum (firstn (Z.to_nat (month t - 1)) (month_lengths (year t))) + (day t - 1).
(** microseconds since 1970-01-01 00:00:00 *)
Definition since_1970 (t : moment) : Z :=
  ((day_number t - day_number (Moment 1970 1 1 0 0 0 0)) * 86400 + hour t * 3600 + minute t * 60 + second t) * 1000000 + micro t.
Definition shown_moment (t : moment) : text :=
  T "datetime.datetime(" ++ str_int (year t) ++ T ", " ++ str_int (month t) ++ T ", " ++ str_int (day t) ++ T ", " ++ str_int (hour t) ++ T ", " ++ str_int (minute t) ++
  (if (second t =? 0) && (micro t =? 0) then [] else T ", " ++ str_int (second t)) ++ (if micro t =? 0 then [] else T ", " ++ str_int (micro t)) ++ T ")".
