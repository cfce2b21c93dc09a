(** * XraySpec: vocabulary for statements about the search of terms and the memory dump. *)
From Coq Require Import ZArith List Ascii String Bool.
From Verif Require Import PyBase MapModel MapSpec.
Import ListNotations.
Open Scope Z_scope.

(** The process has these mappings and each can be read as a whole. *)
Definition readable (maps : res (list mapping)) (read : Z -> Z -> res (list byte)) (ms : list mapping) (content : mapping -> list byte) : Prop :=
  maps = Ok ms /\ forall m, In m ms -> reads read (mp_start m) (content m) /\ mp_end m = mp_start m + zlen (content m).
(** [l] has an occurrence of [pat] at the address [a], or one that starts before it and overlaps it. *)
Definition covered (pat : list byte) (a : Z) (l : list Z) : Prop := exists b, In b l /\ b <= a < b + zlen pat.
(** The text is part of the name of the mapping. *)
Definition in_name (t : text) (m : mapping) : Prop := exists name a b, mp_pathname m = Some name /\ name = a ++ t ++ b.
(** What the dump shall contain: the readable mappings that are not of a shared library (as far as the name tells) *)
Definition dumped (m : mapping) : Prop :=
  (exists r, mp_permissions m = "r"%char :: r) /\ ~ in_name (T "/lib") m /\ ~ in_name (T "/usr") m.
Inductive dump_of (content : mapping -> list byte) : list mapping -> list byte -> Prop :=
| dump_nil : dump_of content [] []
| dump_keep m ms d : dumped m -> dump_of content ms d -> dump_of content (m :: ms) (content m ++ d)
| dump_skip m ms d : ~ dumped m -> dump_of content ms d -> dump_of content (m :: ms) d.
(** Permissions of a mapping, as Linux writes them: the first is r or - *)
Definition read_permission (m : mapping) : Prop := exists r, mp_permissions m = "r"%char :: r \/ mp_permissions m = "-"%char :: r.
(** The text of /proc/PID/maps *)
Definition maps_text (ms : list mapping) (pads : list nat) : text := List.concat (map (fun mp => maps_line (fst mp) (snd mp)) (combine ms pads)).

(** ** Terms: byte string literals of Python between the quotes [q] *)
Definition hexdigit (upper : bool) (n : Z) : ascii := nth (Z.to_nat n) (if upper then T "0123456789ABCDEF" else T "0123456789abcdef") "0"%char.
Definition octdigit (n : Z) : ascii := nth (Z.to_nat n) (T "01234567") "0"%char.
Definition starts_octal (t : text) : Prop := exists n u, 0 <= n < 8 /\ t = octdigit n :: u.
(** The escapes of one letter *)
Definition escapes : list (ascii * Z) :=
  [("\"%char, 92); ("'"%char, 39); (""""%char, 34); ("a"%char, 7); ("b"%char, 8); ("f"%char, 12); ("n"%char, 10); ("r"%char, 13); ("t"%char, 9); ("v"%char, 11)].
(** What ends a line or the source: null, newline, carriage return *)
Definition line_end (c : ascii) : Prop := In (b2z c) [0; 10; 13].
(** [t] is the text of the bytes [s]. *)
Inductive written (q : ascii) : list byte -> text -> Prop :=
| written_nil : written q [] []
| written_itself c s t : c <> q -> c <> "\"%char -> ~ line_end c -> b2z c < 128 -> written q s t -> written q (c :: s) (c :: t)
| written_escape e n s t : In (e, n) escapes -> written q s t -> written q (z2b n :: s) ("\"%char :: e :: t)
| written_hex c u v s t : written q s t ->
    written q (c :: s) ("\"%char :: "x"%char :: hexdigit u (b2z c / 16) :: hexdigit v (b2z c mod 16) :: t)
| written_octal3 i j k s t : 0 <= i < 8 -> 0 <= j < 8 -> 0 <= k < 8 -> written q s t ->
    written q (z2b ((64 * i + 8 * j + k) mod 256) :: s) ("\"%char :: octdigit i :: octdigit j :: octdigit k :: t)
| written_octal2 i j s t : 0 <= i < 8 -> 0 <= j < 8 -> ~ starts_octal t -> written q s t ->
    written q (z2b (8 * i + j) :: s) ("\"%char :: octdigit i :: octdigit j :: t)
| written_octal1 i s t : 0 <= i < 8 -> ~ starts_octal t -> written q s t -> written q (z2b i :: s) ("\"%char :: octdigit i :: t)
| written_other e s t : (forall n, ~ In (e, n) escapes) -> e <> "x"%char -> (forall n, 0 <= n < 8 -> e <> octdigit n) -> ~ line_end e -> b2z e < 128 ->
    written q s t -> written q ("\"%char :: e :: s) ("\"%char :: e :: t).
(** Not one literal on one line: something follows the closing quote, or the line ends before it. *)
Definition not_one_literal (q : ascii) (u : text) : Prop :=
  exists s t rest, written q s t /\
    (u = t ++ q :: rest /\ rest <> [] \/ exists c, line_end c /\ (u = t ++ c :: rest \/ u = t ++ "\"%char :: c :: rest)).

(** ** The help *)
Definition help_page : list string :=
  ["cont: continue execution";
   "step: execute one instruction (do not enter in a call)";
   "stepi: execute one instruction (enter the call)";
   "until: execute code until specified address (until <address>)";
   "set: set register value (set <register>=<value>)";
   "sys: continue execution to next syscall";
   "signal: send a signal to the process (signal <signum>)";
   "signals: display signals";
   "regs: display registers";
   "where: display true code content (show breakpoints effects on code). e.g. 'where $eip', 'where $eip $eip+20'";
   "print: display a value (print <value>)";
   "hexdump: dump memory as specified address or address range (hexdump <address> or hexdump <start> <stop>)";
   "gcore: generate core file of the process";
   "where2: display original code content (don't show effects of breakpoint on code)";
   "stack: display stack content";
   "backtrace: dump the backtrace";
   "proc: display process information";
   "maps: display memory mappings";
   "break: set a breakpoint (break <address>)";
   "breakpoints: display breakpoints";
   "delete: delete a breakpoint (delete <address>)";
   "attach: attach a new process (e.g. ""attach 2390"")";
   "proclist: list of traced processes";
   "switch: switch active process (switch or switch <pid>)";
   "follow: follow a term (e.g. ""follow '\x12\x14\x27\x13'"")";
   "showfollow: show all ""followed"" terms";
   "resetfollow: reset all ""followed"" terms";
   "xray: show addresses of (and possible pointers to) ""followed"" terms";
   "dbginfo: information about the debugger";
   "quit: quit debugger";
   "help: display this help";
   "";
   "Value can be an hexadecimal/decimal number or a register name ($reg)";
   "You can use operators a+b, a-b, a*b, a/b, a<<b, a>>b, a**b, and parenthesis in expressions";
   "Use "";"" to write multiple commands on the same line (e.g. ""step; print $eax"")"]%string.

(** ** Hexadecimal numbers in either case *)
Definition hex_digit (c : ascii) (d : nat) : Prop := nth_error (T "0123456789abcdef") d = Some c \/ nth_error (T "0123456789ABCDEF") d = Some c.
Inductive hex_word : text -> Z -> Prop :=
| hw_one c d : hex_digit c d -> hex_word [c] (Z.of_nat d)
| hw_more w n c d : hex_word w n -> hex_digit c d -> hex_word (w ++ [c]) (16 * n + Z.of_nat d).
