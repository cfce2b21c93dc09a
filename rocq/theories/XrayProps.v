(** * XrayProps: C104 (followed terms), C105 (memory dump), C106 (help). *)
From Coq Require Import ZArith List Ascii String Bool Lia.
From Verif Require Import PyBase Platform IntModel RegexModel MapModel MapSpec ArgModel GdbModel GdbSpec XrayModel XraySpec XrayProofs XrayProofs2.
Import ListNotations.
Open Scope Z_scope.

(** ** C104 *)
Theorem c104_follow : forall eval s, parseBytes eval (skipn 1 (repr_bytes s)) = Ok s.
Proof. exact follow_repr. Qed.
Print Assumptions c104_follow.
(** A literal between quotes gives the bytes that Python's rules for byte strings give it; nothing else that stands between two quotes is a term. *)
Theorem c104_written : forall eval q s t n, q = "'"%char \/ q = """"%char -> written q s t -> parseBytes eval (repeat " "%char n ++ [q] ++ t ++ [q]) = Ok s.
Proof. exact follow_written. Qed.
Print Assumptions c104_written.
Theorem c104_only : forall eval q u n s, q = "'"%char \/ q = """"%char -> ~ not_one_literal q u -> parseBytes eval (repeat " "%char n ++ [q] ++ u) = Ok s ->
  exists t, u = t ++ [q] /\ written q s t.
Proof. exact follow_only. Qed.
Print Assumptions c104_only.
Theorem c104_refused : forall eval q u n, q = "'"%char \/ q = """"%char -> ~ not_one_literal q u -> ~ (exists s t, u = t ++ [q] /\ written q s t) ->
  parseBytes eval (repeat " "%char n ++ [q] ++ u) = Err ESyntaxError.
Proof. exact follow_refused. Qed.
Print Assumptions c104_refused.
(** The rest is left to eval() of Python. *)
Theorem c104_eval : forall eval q u n, q = "'"%char \/ q = """"%char -> not_one_literal q u ->
  parseBytes eval (repeat " "%char n ++ [q] ++ u) = (do v <- eval (T "b" ++ [q] ++ u); match v with Some s => Ok s | None => Err ETypeError end).
Proof. exact follow_eval. Qed.
Print Assumptions c104_eval.
Example c104_follow_ex : parseBytes (fun _ => Err ESyntaxError) (T " '\x12\101b""\7\n\d'") = Ok ([z2b 18] ++ T "Ab""" ++ [z2b 7; z2b 10] ++ T "\d") /\
  written "'" [z2b 18; "A"%char; "b"%char; z2b 7] (T "\x12\101b\7") /\ not_one_literal "'" (T "a'+b'c'") /\ ~ not_one_literal "'" (T "\x1'").
Proof.
  split; [vm_compute; reflexivity|]. split.
  - apply (written_hex _ (z2b 18) false false). apply (written_octal3 _ 1 0 1 _ (T "b\7")); try lia. apply (written_itself _ "b"%char _ (T "\7")); [discriminate|discriminate|intros [H|[H|[H|[]]]]; vm_compute in H; discriminate H|vm_compute; reflexivity|].
    apply (written_octal1 _ 7 _ []); [lia|intros (n & u & _ & E); discriminate E|constructor].
  - split.
    + exists (T "a"), (T "a"), (T "+b'c'"). split; [|left; split; [reflexivity|discriminate]]. apply written_itself; [discriminate|discriminate|intros [H|[H|[H|[]]]]; vm_compute in H; discriminate H|vm_compute; reflexivity|constructor].
    + intros H. apply not_one_none in H; [|now left]. vm_compute in H. discriminate H.
Qed.
Theorem c104_show : forall l l', showFollowTerms l = showFollowTerms l' -> l = l'.
Proof. exact show_inj. Qed.
Print Assumptions c104_show.
Example c104_show_ex : showFollowTerms [T "a'"; [z2b 0]] = T "[b""a'"", b'\x00']".
Proof. vm_compute. reflexivity. Qed.
Theorem c104_found : forall maps read ms content processes terms,
  (forall id, In id processes -> readable (maps id) (read id) (ms id) (content id)) -> Forall (fun t => t <> []) terms ->
  exists L, find_terms maps read processes terms = (L, Ok tt) /\
    (forall id m a t, In (id, m, a, t) L -> In t terms /\ In id processes /\ In m (ms id) /\ occurs t (content id m) (a - mp_start m)) /\
    (forall id m t i, In t terms -> In id processes -> In m (ms id) -> occurs t (content id m) i -> exists a, In (id, m, a, t) L /\ a <= mp_start m + i < a + zlen t).
Proof. exact find_spec. Qed.
Print Assumptions c104_found.
Theorem c104_order : forall maps read ms content processes terms,
  (forall id, In id processes -> readable (maps id) (read id) (ms id) (content id)) -> Forall (fun t => t <> []) terms ->
  find_terms maps read processes terms =
  (flat_map (fun term => flat_map (fun id => flat_map (fun m => map (fun a => (id, m, a, term)) (fst (search (read id) term m))) (ms id)) processes) terms, Ok tt).
Proof. exact find_all. Qed.
Print Assumptions c104_order.
Theorem c104_pointers : forall p maps read ms content id a w, readable (maps id) (read id) (ms id) (content id) -> word2bytes p a = Ok w ->
  exists L, getPointers p maps read id a = (L, Ok tt) /\
    (forall b, In b L -> exists m, In m (ms id) /\ occurs w (content id m) (b - mp_start m)) /\
    (forall m i, In m (ms id) -> occurs w (content id m) i -> covered w (mp_start m + i) L).
Proof. exact pointers_spec. Qed.
Print Assumptions c104_pointers.
Theorem c104_lines : forall p pid maps read ms content processes terms,
  (forall id, In id processes -> readable (maps id) (read id) (ms id) (content id)) -> Forall (fun t => t <> []) terms ->
  (forall id m, In id processes -> In m (ms id) -> 0 <= mp_start m /\ mp_end m <= 2 ^ (8 * word_size p)) ->
  exists L, find_terms maps read processes terms = (L, Ok tt) /\
    xray p pid maps read processes terms = (map (fun f : found => let '(id, m, a, t) := f in
      T "term[" ++ repr_bytes t ++ T "] pid[" ++ str_int (pid id) ++ T "] " ++ map_str p m ++ T " " ++ formatAddress p a ++ T " pointers: " ++
      join (T " ") (map (formatAddress p) (fst (getPointers p maps read id a)))) L, Ok tt) /\
    (forall id m a t, In (id, m, a, t) L -> snd (getPointers p maps read id a) = Ok tt).
Proof. exact xray_spec. Qed.
Print Assumptions c104_lines.
(** A heap with the term at 0x1002 and a pointer to it at 0x1008 *)
Example c104_ex :
  let heap := Mapping 4096 4112 (T "rw-p") 0 0 0 0 (Some (T "[heap]")) in
  let data := T "xxkey!!!" ++ [z2b 2; z2b 16; z2b 0; z2b 0; z2b 0; z2b 0; z2b 0; z2b 0] in
  let read (id : nat) a n := Ok (firstn (Z.to_nat n) (skipn (Z.to_nat (a - 4096)) data)) in
  readable (Ok [heap]) (read O) [heap] (fun _ => data) /\
  xray linux_x86_64 (fun _ => 42) (fun _ => Ok [heap]) read [O] [T "key"] =
    ([T "term[b'key'] pid[42] 0x0000000000001000-0x0000000000001010 => [heap] (rw-p) 0x0000000000001002 pointers: 0x0000000000001008"], Ok tt).
Proof.
  split; [|vm_compute; reflexivity]. split; [reflexivity|]. intros m [<-|[]]. split; [|reflexivity]. intros before middle after E. cbn [mp_start].
  replace (4096 + zlen before - 4096) with (zlen before) by lia. rewrite E. unfold zlen. rewrite !Nat2Z.id, skipn_app, skipn_all, Nat.sub_diag. cbn [skipn app].
  rewrite firstn_app, Nat.sub_diag, firstn_all. cbn [firstn]. now rewrite app_nil_r.
Qed.
(** One mapping that cannot be read, such as [vvar], and the search finds nothing in the following ones. *)
Theorem c104_unreadable_refuted : exists maps read m, maps O = Ok [Mapping 4096 8192 (T "---p") 0 0 0 0 (Some (T "[vvar]")); m] /\
  MapSpec.reads (read O) (mp_start m) (T "secret") /\ mp_end m = mp_start m + 6 /\ xray linux_x86_64 (fun _ => 1) maps read [O] [T "secret"] = ([], Err (EOSError 5)).
Proof. exact unreadable. Qed.
Print Assumptions c104_unreadable_refuted.
(** The search of an empty term does not end. *)
Theorem c104_empty_refuted : exists maps read, (forall a n, exists s, read O a n = Ok s) /\ snd (find_terms maps read [O] [[]]) = Err EDiverges.
Proof. exact empty_term. Qed.
Print Assumptions c104_empty_refuted.
(** A literal with a semicolon is cut before it is read. *)
Theorem c104_semicolon_refuted : exists line, line = T "follow " ++ T "'a;b'" /\ (forall eval, parseBytes eval (T "'a;b'") = Ok (T "a;b")) /\
  exists t rest, split_char ";"%char line = t :: rest /\ dispatch (strip t) = KFollow (T "'a") /\ forall eval, parseBytes eval (T "'a") = Err ESyntaxError.
Proof. exact semicolon. Qed.
Print Assumptions c104_semicolon_refuted.

(** ** C105 *)
Theorem c105_dump : forall argv1 open_maps open_mem open_dump mem content n ms pads, 0 <= n ->
  Forall plain_mapping ms -> Forall read_permission ms -> List.length pads = List.length ms ->
  (forall m, In m ms -> dumped m -> mem (mp_start m) (mp_end m - mp_start m) = Ok (content m)) ->
  open_maps (T "/proc/" ++ str_int n ++ T "/maps") = Ok (maps_text ms pads) -> open_mem (T "/proc/" ++ str_int n ++ T "/mem") = Ok tt ->
  open_dump (T "/vmdump/" ++ argv1 ++ T ".dump") = Ok tt ->
  exists d, dump_of content ms d /\ gcore false (Some argv1) open_maps open_mem open_dump mem (process_str n) = (Some (T "/vmdump/" ++ argv1 ++ T ".dump", d), Ok tt).
Proof. exact gcore_spec. Qed.
Print Assumptions c105_dump.
Theorem c105_pid : forall n, 0 <= n -> child_pid (process_str n) = str_int n.
Proof. exact child_pid_str. Qed.
Print Assumptions c105_pid.
Example c105_ex :
  let ms := [Mapping 4096 4100 (T "r-xp") 0 8 1 77 (Some (T "/bin/cat")); Mapping 8192 8196 (T "---p") 0 8 1 78 (Some (T "/bin/cat"));
             Mapping 12288 12292 (T "r-xp") 0 8 1 79 (Some (T "/lib/libc.so")); Mapping 16384 16388 (T "rw-p") 0 0 0 0 None] in
  gcore false (Some (T "prog")) (fun name => if text_eqb name (T "/proc/12/maps") then Ok (maps_text ms [2; 2; 1; 0]%nat) else Err (EOSError 2)) (fun _ => Ok tt) (fun _ => Ok tt)
    (fun a n => if n =? 4 then Ok (firstn 4 (digits 10 a)) else Err (EOSError 5)) (process_str 12) = (Some (T "/vmdump/prog.dump", T "40961638"), Ok tt).
Proof. vm_compute. reflexivity. Qed.
(** The addresses of a line may be written with digits in either case; a line that does not begin with one is an error *)
Theorem c105_hexadecimal : forall mem w1 n1 w2 n2 rest, hex_word w1 n1 -> hex_word w2 n2 ->
  let line := w1 ++ T "-" ++ w2 ++ T " r" ++ rest in contains (T "/lib") line = false -> contains (T "/usr") line = false ->
  gcore_line mem line = mem n1 (n2 - n1).
Proof. exact gcore_hex. Qed.
Print Assumptions c105_hexadecimal.
Theorem c105_not_a_line : forall mem c rest, (forall d, ~ hex_digit c d) -> gcore_line mem (c :: rest) = Err EAttributeError.
Proof. exact gcore_not_hex. Qed.
Print Assumptions c105_not_a_line.
Example c105_hexadecimal_ex : gcore_line (fun a n => Ok (digits 10 a ++ T "+" ++ digits 10 n)) (T "00A0-00aF rw-p 0") = Ok (T "160+15") /\
  gcore_line (fun _ _ => Ok []) (T "G0-F0 rw-p 0") = Err EAttributeError.
Proof. split; vm_compute; reflexivity. Qed.
(** No dump with Python 3 *)
Theorem c105_python3_refuted : exists argv1 open_maps open_mem open_dump mem process,
  gcore false argv1 open_maps open_mem open_dump mem process = (Some (T "/vmdump/prog.dump", T "data"), Ok tt) /\
  gcore true argv1 open_maps open_mem open_dump mem process = (None, Err EValueError).
Proof. exact gcore_python3_ex. Qed.
Print Assumptions c105_python3_refuted.
Theorem c105_python3_fails : forall argv1 open_maps open_mem open_dump mem process, exists e, gcore true argv1 open_maps open_mem open_dump mem process = (None, Err e).
Proof. exact gcore_python3. Qed.
Print Assumptions c105_python3_fails.
(** A mapping that is not of a shared library may be left out. *)
Theorem c105_skipped_refuted : exists m, mp_permissions m = T "rw-p" /\ mp_pathname m = Some (T "/home/u/library/data") /\ plain_mapping m /\
  gcore_line (fun _ _ => Ok (T "secret")) (maps_line m 3) = Ok [].
Proof. exact gcore_skipped. Qed.
Print Assumptions c105_skipped_refuted.

(** ** C106 *)
Theorem c106_listed : forall c, In c words \/ In c (map strip prefixes) -> In c (map fst COMMANDS).
Proof. exact listed_words. Qed.
Print Assumptions c106_listed.
Theorem c106_known : forall c, In c (map fst COMMANDS) -> c <> T "quit" -> forall t, dispatch c <> KUnknown t \/ dispatch (c ++ " "%char :: t) <> KUnknown (c ++ " "%char :: t).
Proof. exact help_known. Qed.
Print Assumptions c106_known.
Theorem c106_commands : forall c, In c (map fst COMMANDS) -> In c words \/ In c (map strip prefixes) \/ c = T "quit".
Proof. exact words_listed. Qed.
Print Assumptions c106_commands.
Theorem c106_once : NoDup (map fst COMMANDS).
Proof. exact help_once. Qed.
Print Assumptions c106_once.
Theorem c106_lines : forall c d, In (c, d) COMMANDS -> In (c ++ T ": " ++ d) help.
Proof. exact help_lines. Qed.
Print Assumptions c106_lines.
Theorem c106_text : help = map T help_page.
Proof. exact help_text. Qed.
Print Assumptions c106_text.
Theorem c106_info : forall n, debuggerInfo n = [T "Debugger process ID: " ++ str_int n; T "python-ptrace version 0.9.10"; T "Website: http://python-ptrace.readthedocs.io/"].
Proof. exact info_lines. Qed.
Print Assumptions c106_info.
Example c106_ex : In (T "xray") (map fst COMMANDS) /\ dispatch (T "xray") = KXray /\ nth_error help 0 = Some (T "cont: continue execution") /\ nth_error (debuggerInfo 7) 0 = Some (T "Debugger process ID: 7").
Proof. split; [now apply c106_listed; left; vm_compute; tauto|]. repeat split. Qed.
