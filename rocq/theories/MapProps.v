(** * MapProps: property theorems about memory mappings (C18, C19). *)
From Coq Require Import ZArith List Ascii String Bool Lia.
From Verif Require Import PyBase Platform IntModel RegexModel MapModel MapSpec MapProofs MapProofs2.
Import ListNotations.
Open Scope Z_scope.

(** ** C18 Memory search finds every occurrence *)
Theorem c18_search : forall read pat start content, reads read start content -> pat <> [] ->
  forall m, mp_start m = start -> mp_end m = start + zlen content ->
  exists L, search read pat m = (map (fun o => start + o) L, Ok tt) /\
    Forall (occurs pat content) L /\ apart (zlen pat) L /\
    (forall i, occurs pat content i -> In i L \/ exists o, In o L /\ o < i < o + zlen pat).
Proof. exact search_spec. Qed.
Print Assumptions c18_search.
(** Whatever the reads give: the search ends, with the error of a read if there is one; what it reported was read. *)
Theorem c18_any_memory : forall read pat, pat <> [] -> (forall a n s, read a n = Ok s -> zlen s <= n) -> forall fuel covered remaining L r,
  remaining <= Z.of_nat fuel -> search_loop read pat fuel covered remaining = (L, r) ->
  (match r with Err e => e <> EDiverges \/ exists a n, read a n = Err EDiverges | Ok _ => True end) /\ apart (zlen pat) L /\ Forall (fun a => covered <= a) L /\
  Forall (fun a => a + zlen pat <= covered + remaining) L /\
  Forall (fun a => exists b n data i, read b n = Ok data /\ occurs pat data i /\ a = b + i) L.
Proof. exact search_partial. Qed.
Print Assumptions c18_any_memory.
(** The empty pattern: the generator never ends. *)
Theorem c18_empty_pattern : forall read, (forall a n, exists s, read a n = Ok s) -> forall fuel covered remaining, 0 <= remaining ->
  snd (search_loop read [] fuel covered remaining) = Err EDiverges.
Proof. exact search_empty. Qed.
Print Assumptions c18_empty_pattern.
Example c18_ex :
  search (fun a n => Ok (pyslice (Some (a - 100)) (Some (a - 100 + n)) (T "abababXab"))) (T "aba") (Mapping 100 109 (T "r--p") 0 8 1 2 None) = ([100], Ok tt) /\
  search (fun a n => Ok (pyslice (Some (a - 100)) (Some (a - 100 + n)) (T "abababXab"))) (T "ab") (Mapping 100 109 (T "r--p") 0 8 1 2 None) = ([100; 102; 104; 107], Ok tt).
Proof. split; vm_compute; reflexivity. Qed.

(** ** C19 /proc/pid/maps parsing round-trips *)
Theorem c19_line : forall m pad, plain_mapping m -> parse_mapping (maps_line m pad) = Ok m.
Proof. exact parse_line. Qed.
Print Assumptions c19_line.
Theorem c19_file_partial : forall p decode ms (pads : list nat) data, running_linux p = true ->
  Forall plain_mapping ms -> List.length pads = List.length ms ->
  data = List.concat (map (fun mp => maps_line (fst mp) (snd mp)) (combine ms pads)) -> decode data = Ok data ->
  readProcessMappings p decode (Ok data) = Ok ms.
Proof. exact read_file. Qed.
Print Assumptions c19_file_partial.
(** Linux minor numbers have 20 bits; the expression accepts three hexadecimal digits. *)
Theorem c19_minor_refuted : exists m pad, mp_minor m = 4096 /\ parse_mapping (maps_line m pad) = Err EProcessError.
Proof. exact big_minor. Qed.
Print Assumptions c19_minor_refuted.
(** A file name that ends with a space *)
Theorem c19_trailing_space_refuted : exists m m', mp_pathname m = Some (T "/tmp/a ") /\ parse_mapping (maps_line m 3) = Ok m' /\ mp_pathname m' = Some (T "/tmp/a").
Proof. exact trailing_space. Qed.
Print Assumptions c19_trailing_space_refuted.
(** A file name with a carriage return: the line is cut in two. *)
Theorem c19_carriage_return_refuted : exists m, mp_pathname m = Some (T "/tmp/a" ++ [CR] ++ T "b") /\
  readProcessMappings linux_x86_64 (fun d => Ok d) (Ok (maps_line m 3)) = Err EProcessError.
Proof. exact carriage_return. Qed.
Print Assumptions c19_carriage_return_refuted.
Theorem c19_not_linux : forall p decode file, running_linux p = false -> readProcessMappings p decode file = Ok [].
Proof. exact read_not_linux. Qed.
Print Assumptions c19_not_linux.
Theorem c19_open_error : forall p decode e, running_linux p = true -> readProcessMappings p decode (Err (EOSError e)) = Err EProcessError.
Proof. exact read_open_error. Qed.
Print Assumptions c19_open_error.
Theorem c19_contains : forall m a, map_contains m a = true <-> mp_start m <= a < mp_end m.
Proof. exact contains_spec. Qed.
Print Assumptions c19_contains.
(** The text of a mapping determines its addresses. *)
Theorem c19_str : forall p m1 m2, 0 <= mp_start m1 -> 0 <= mp_end m1 -> 0 <= mp_start m2 -> 0 <= mp_end m2 ->
  map_str p m1 = map_str p m2 -> mp_start m1 = mp_start m2 /\ mp_end m1 = mp_end m2.
Proof. exact map_str_inj. Qed.
Print Assumptions c19_str.
Theorem c19_stack : forall maps m, findStack maps = Some m -> In m maps /\ mp_pathname m = Some (T "[stack]").
Proof. exact findStack_some. Qed.
Print Assumptions c19_stack.
Theorem c19_no_stack : forall maps, findStack maps = None -> forall m, In m maps -> mp_pathname m <> Some (T "[stack]").
Proof. exact findStack_none. Qed.
Print Assumptions c19_no_stack.
Example c19_ex :
  let m := Mapping 140737488203776 140737488355328 (T "rw-p") 0 0 0 0 (Some (T "[stack]")) in
  let m2 := Mapping 4194304 4198400 (T "r-xp") 4096 253 17 393449 (Some (T "/opt/my app/x")) in
  plain_mapping m /\ plain_mapping m2 /\
  maps_line m2 19 = T "00400000-00401000 r-xp 00001000 fd:11 393449                    /opt/my app/x" ++ [newline] /\
  readProcessMappings linux_x86_64 (fun d => Ok d) (Ok (maps_line m2 19 ++ maps_line m 5)) = Ok [m2; m] /\
  map_str linux_x86_64 m2 = T "0x0000000000400000-0x0000000000401000 => /opt/my app/x (r-xp)".
Proof.
  cbv zeta. repeat split; try (cbn; lia); try (repeat constructor; cbn; tauto); try (vm_compute; reflexivity).
  all: try (cbn; intros H; repeat (destruct H as [H|H]; [discriminate H|]); exact H).
  - exists "["%char, (T "stack]"). split; reflexivity.
  - exists (T "[stack"), "]"%char. split; reflexivity.
  - exists "/"%char, (T "opt/my app/x"). split; reflexivity.
  - exists (T "/opt/my app/"), "x"%char. split; reflexivity.
Qed.
(** Memory is read by blocks of 64 KiB (or the length of the pattern), and once the rest of the mapping (C18). *)
Theorem c18_blocks : forall read read' pat m, pat <> [] ->
  (forall a n, (n = Z.max 65536 (zlen pat) \/ n < Z.max 65536 (zlen pat) /\ a + n = mp_end m) -> read a n = read' a n) ->
  search read pat m = search read' pat m.
Proof. exact search_requests. Qed.
Print Assumptions c18_blocks.
Example c18_blocks_ex : search (fun a n => if n =? 9 then Ok (T "abababXab") else Err EUndefined) (T "Xa") (Mapping 100 109 (T "r--p") 0 8 1 2 None) = ([106], Ok tt).
Proof. vm_compute. reflexivity. Qed.
(** Texts (C19) *)
Theorem c19_text : forall p m, map_str p m = formatAddress p (mp_start m) ++ T "-" ++ formatAddress p (mp_end m) ++
  match mp_pathname m with None | Some [] => [] | Some name => T " => " ++ name end ++ T " (" ++ mp_permissions m ++ T ")".
Proof. exact map_text. Qed.
Print Assumptions c19_text.
Theorem c19_dump : forall p maps, Forall2 (fun m line => line = T "MAPS: " ++ map_str p m) maps (dumpMaps p maps).
Proof. exact dump_maps. Qed.
Print Assumptions c19_dump.
Example c19_text_ex : dumpMaps linux_i386 [Mapping 4096 8192 (T "r--p") 0 8 1 2 (Some (T "/bin/ls"))] = [T "MAPS: 0x00001000-0x00002000 => /bin/ls (r--p)"].
Proof. vm_compute. reflexivity. Qed.
(** What Python does to the text of the file *)
Theorem c19_newlines : forall t s, ~ In CR t ->
  universal_newlines t = t /\
  universal_newlines (t ++ CR :: newline :: s) = t ++ newline :: universal_newlines s /\
  ((forall r, s <> newline :: r) -> universal_newlines (t ++ CR :: s) = t ++ newline :: universal_newlines s).
Proof. exact universal_equations. Qed.
Print Assumptions c19_newlines.
Example c19_newlines_ex : universal_newlines (T "a" ++ [CR; newline] ++ T "b" ++ [CR; CR]) = T "a" ++ [newline] ++ T "b" ++ [newline; newline].
Proof. vm_compute. reflexivity. Qed.
