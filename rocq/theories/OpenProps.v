(** * OpenProps: C144 — open files. *)
From Coq Require Import ZArith List Ascii String.
From Verif Require Import PyBase PyInt Platform HostModel MapModel XrayModel OpenModel OpenSpec OpenProofs.
Import ListNotations.
Open Scope Z_scope.

(** readProc() and readProcessProc() leave no file open, whatever open() and read() do. *)
Theorem c144_read : forall path pid key r r', clean (readProc path r) /\ clean (readProcessProc pid key r').
Proof. exact (fun path pid key r r' => conj (readProc_clean path r) (readProcessProc_clean pid key r')). Qed.
Print Assumptions c144_read.
(** readProcessMappings() neither, whatever is in the file. *)
Theorem c144_maps : forall has_proc pid r, clean (readProcessMappings has_proc pid r).
Proof. exact maps_clean. Qed.
Print Assumptions c144_maps.
(** Its result is that of C19. *)
Theorem c144_maps_agree : forall p decode pid data t s, running_linux p = true -> text_of decode data = Ok t ->
  snd (readProcessMappings true pid (Ok (Lines (file_lines t) None)) s) = MapModel.readProcessMappings p decode (Ok data).
Proof. exact maps_agree. Qed.
Print Assumptions c144_maps_agree.
(** getSystemBoot() leaves /proc/stat open exactly when reading it fails or its line of the boot time has no valid number. *)
Theorem c144_boot_left : forall zone l s, fst (getSystemBoot zone None (Ok l) s) = T "/proc/stat" :: s <-> boot_spoiled zone l.
Proof. exact boot_left. Qed.
Print Assumptions c144_boot_left.
Theorem c144_boot_clean : forall zone value r, (value <> None \/ (exists e, r = Err e) \/ exists l, r = Ok l /\ ~ boot_spoiled zone l) -> clean (getSystemBoot zone value r).
Proof. exact boot_clean. Qed.
Print Assumptions c144_boot_clean.
(** With a file as Linux writes it, it is closed and the time returned (even if reading on would fail). *)
Theorem c144_boot_linux : forall zone before n after error s, Forall (fun line => ~ is_btime line) before -> 0 <= n <= 2147483647 -> Z.abs (zone 0) <= 86400 ->
  getSystemBoot zone None (Ok (Lines (before ++ boot_line n :: after) error)) s = (s, Ok (n + zone 0)).
Proof. exact boot_linux. Qed.
Print Assumptions c144_boot_linux.
(** dumpProcessInfo() closes /proc/pid/status exactly when the file can be used. *)
Theorem c144_status : forall pid l log s,
  (good_status l -> fst (dumpStatus pid (Ok l) log s) = s) /\ (~ good_status l -> fst (dumpStatus pid (Ok l) log s) = (T "/proc/" ++ pid ++ T "/status") :: s).
Proof. exact status_left. Qed.
Print Assumptions c144_status.
(** gcore(): all files are closed when it succeeds; after any error behind the first open(), the file of the mappings, at least, is open. *)
Theorem c144_gcore : forall python3 child argv1 maps mem_file dump mem write s, snd (gcore python3 child argv1 maps mem_file dump mem write s) = Ok tt ->
  fst (gcore python3 child argv1 maps mem_file dump mem write s) = s.
Proof. exact gcore_ok. Qed.
Print Assumptions c144_gcore.
Theorem c144_gcore_left : forall python3 child argv1 l mem_file dump mem write s e, snd (gcore python3 child argv1 (Ok l) mem_file dump mem write s) = Err e ->
  exists others, fst (gcore python3 child argv1 (Ok l) mem_file dump mem write s) = others ++ (T "/proc/" ++ child ++ T "/maps") :: s.
Proof. exact gcore_left. Qed.
Print Assumptions c144_gcore_left.
(** With Python 3 this is always so. *)
Theorem c144_gcore_python3 : forall child argv1 l mem_file dump mem write s,
  gcore true child argv1 (Ok l) mem_file dump mem write s = ((T "/proc/" ++ child ++ T "/maps") :: s, Err EValueError).
Proof. exact gcore_python3. Qed.
Print Assumptions c144_gcore_python3.
(** So three functions leave files open after an error. *)
Theorem c144_closed_refuted : (exists zone r, ~ clean (getSystemBoot zone None r)) /\ (exists pid r log, ~ clean (dumpStatus pid r log))
  /\ exists child argv1 maps mem_file dump mem write, ~ clean (gcore true child argv1 maps mem_file dump mem write).
Proof. exact left_open. Qed.
Print Assumptions c144_closed_refuted.
(** The result of gcore() is that of C105. *)
Theorem c144_gcore_agree : forall python3 argv1 open_maps open_mem open_dump mem process s,
  let child := child_pid process in
  snd (gcore python3 child argv1 (match open_maps (T "/proc/" ++ child ++ T "/maps") with Ok t => Ok (Lines (file_lines t) None) | Err e => Err e end)
    (open_mem (T "/proc/" ++ child ++ T "/mem")) (match argv1 with Some a => open_dump (T "/vmdump/" ++ a ++ T ".dump") | None => Ok tt end) mem (fun _ => Ok tt) s)
  = snd (XrayModel.gcore python3 argv1 open_maps open_mem open_dump mem process).
Proof. exact gcore_agree. Qed.
Print Assumptions c144_gcore_agree.
(** A process object has one file /proc/pid/mem at most; it is open exactly from the first read that could open it to the end of the process. *)
Theorem c144_mem : forall pid s l, (held l -> fst (steps pid l (s, new_proc)) = mem_name pid :: s) /\ (~ held l -> fst (steps pid l (s, new_proc)) = s).
Proof. exact mem_held. Qed.
Print Assumptions c144_mem.
(** After the end of the process it is closed, whatever was done before. *)
Theorem c144_mem_end : forall pid s l, fst (steps pid (l ++ [End]) (s, new_proc)) = s.
Proof. exact mem_ended. Qed.
Print Assumptions c144_mem_end.
(** It is not opened again: a later read is a ProcessError, or goes the other way if that was chosen before. *)
Theorem c144_mem_late : forall pid s before size0 data0 peek0 middle after size r data peek, Forall (fun o => ~ decides o) before ->
  let x := steps pid (before ++ Read size0 (Ok tt) data0 peek0 :: middle ++ End :: after) (s, new_proc) in
  snd (readBytes pid size r data peek (snd x) (fst x)) = if p_fallback (snd x) then peek else Err EProcessError.
Proof. exact mem_late. Qed.
Print Assumptions c144_mem_late.
(** detach() does not close it. *)
Theorem c144_detach_refuted : exists pid l, fst (steps pid (l ++ [Detach]) ([], new_proc)) = [mem_name pid].
Proof. exists (T "42"), [Read 4 (Ok tt) (Ok (T "data")) (Ok [])]. reflexivity. Qed.
Print Assumptions c144_detach_refuted.

(** The results: an error of open() becomes ProcError; readProcessProc() also replaces the errors of read(), readProc() does not. *)
Theorem c144_read_results : forall path pid key n c s,
  readProc path (Err (EOSError n)) s = (s, Err EProcError) /\ readProc path (Ok c) s = (s, c)
  /\ readProcessProc pid key (Err (EOSError n)) s = (s, Err EProcError) /\ readProcessProc pid key (Ok (Err (EOSError n))) s = (s, Err EProcError)
  /\ (forall t, readProcessProc pid key (Ok (Ok t)) s = (s, Ok t)).
Proof. exact read_results. Qed.
Print Assumptions c144_read_results.
(** The mappings: the first error counts; that of open() becomes ProcessError. *)
Theorem c144_maps_results : forall pid n l s e,
  readProcessMappings true pid (Err (EOSError n)) s = (s, Err EProcessError)
  /\ (Forall (fun x => exists m, parse_mapping x = Ok m) l -> readProcessMappings true pid (Ok (Lines l (Some e))) s = (s, Err e))
  /\ forall before x after error, Forall (fun x => exists m, parse_mapping x = Ok m) before -> parse_mapping x = Err e ->
     readProcessMappings true pid (Ok (Lines (before ++ x :: after) error)) s = (s, Err e).
Proof. exact maps_results. Qed.
Print Assumptions c144_maps_results.
(** The boot time: ProcError without file or line; a known value is returned. *)
Theorem c144_boot_results : forall zone n l s v, getSystemBoot zone None (Err (EOSError n)) s = (s, Err EProcError)
  /\ (Forall (fun line => ~ is_btime line) l -> getSystemBoot zone None (Ok (Lines l None)) s = (s, Err EProcError))
  /\ forall r, getSystemBoot zone (Some v) r s = (s, Ok v).
Proof. exact boot_results. Qed.
Print Assumptions c144_boot_results.
(** The identifiers: nothing is said without the file; with a file as Linux writes it, those of the user and then those of the group. *)
Theorem c144_status_results : forall pid n before u1 u2 u3 u4 middle g1 g2 g3 g4 after log s,
  dumpStatus pid (Err (EOSError n)) log s = (s, Ok tt)
  /\ (Forall (fun line => ~ id_line line) (before ++ middle ++ after) ->
      dumpStatus pid (Ok (Lines (before ++ ids_line (T "Uid:") u1 u2 u3 u4 :: middle ++ ids_line (T "Gid:") g1 g2 g3 g4 :: after) None)) log s
      = (s, match (do _ <- log [u1; u2; u3; u4]; log [g1; g2; g3; g4]) with Err EProcError => Ok tt | r => r end)).
Proof. exact status_results. Qed.
Print Assumptions c144_status_results.
(** gcore() succeeds when every chunk can be read and written. *)
Theorem c144_gcore_result : forall child a l mem write s, snd (gcore false child (Some a) (Ok (Lines l None)) (Ok tt) (Ok tt) mem write s) = Ok tt
  <-> Forall (fun line => exists chunk, gcore_line mem line = Ok chunk /\ write chunk = Ok tt) l.
Proof. exact gcore_result. Qed.
Print Assumptions c144_gcore_result.

(** Files of Linux, and spoiled ones; a process that is read three times *)
Example c144_ex :
  let zone := fun _ : Z => 3600 in let tab := [z2b 9] in let nl := [z2b 10] in
  let stat := [T "cpu  1 2 3" ++ nl; boot_line 1700000000; T "processes 5" ++ nl] in
  let uid := T "Uid:" ++ tab ++ T "0" ++ tab ++ T "1000" ++ nl in
  boot_line 1700000000 = T "btime 1700000000" ++ nl
  /\ getSystemBoot zone None (Ok (Lines stat (Some EUnicodeError))) [T "x"] = ([T "x"], Ok 1700003600)
  /\ getSystemBoot zone None (Ok (Lines [T "btime now"] None)) [T "x"] = ([T "/proc/stat"; T "x"], Err EValueError)
  /\ boot_spoiled zone (Lines [T "cpu"; T "btime now"] None)
  /\ getSystemBoot zone None (Ok (Lines [T "cpu"] (Some (EOSError 5)))) [] = ([T "/proc/stat"], Err (EOSError 5))
  /\ getSystemBoot zone None (Ok (Lines [T "cpu"] None)) [] = ([], Err EProcError)
  /\ dumpStatus (T "1") (Ok (Lines [T "Name: init"; uid] None)) (fun _ => Ok tt) [] = ([], Ok tt)
  /\ dumpStatus (T "1") (Ok (Lines [T "Uid:" ++ tab ++ T "root"] None)) (fun _ => Ok tt) [] = ([T "/proc/1/status"], Err EValueError)
  /\ dumpStatus (T "1") (Ok (Lines [T "Name: x"; ids_line (T "Uid:") 1 2 3 4; T "Ngid: 0"; ids_line (T "Gid:") 5 6 7 8] None)) (fun l => match l with 5 :: _ => Err EKeyError | _ => Ok tt end) []
     = ([], Err EKeyError)
  /\ dumpStatus (T "1") (Err (EOSError 13)) (fun _ => Ok tt) [] = ([], Ok tt)
  /\ readProcessMappings true (T "1") (Ok (Lines [T "?"] None)) [T "x"] = ([T "x"], Err EProcessError)
  /\ readProc (T "stat") (Ok (Err (EOSError 5))) [T "x"] = ([T "x"], Err (EOSError 5)) /\ readProc (T "stat") (Err (EOSError 2)) [] = ([], Err EProcError)
  /\ readProcessProc (T "1") (T "stat") (Ok (Err (EOSError 3))) [T "x"] = ([T "x"], Err EProcError)
  /\ gcore false (T "7") (Some (T "prog")) (Ok (Lines [T "1000-1004 r-xp"] None)) (Ok tt) (Ok tt) (fun _ _ => Ok (T "code")) (fun _ => Ok tt) [T "x"] = ([T "x"], Ok tt)
  /\ gcore false (T "7") None (Ok (Lines [] None)) (Ok tt) (Ok tt) (fun _ _ => Ok []) (fun _ => Ok tt) [] = ([T "/proc/7/mem"; T "/proc/7/maps"], Err EIndexError)
  /\ fst (steps (T "7") [Read 4 (Ok tt) (Ok (T "data")) (Ok []); Detach; Read 4 (Ok tt) (Ok []) (Ok (T "data"))] ([], new_proc)) = [T "/proc/7/mem"]
  /\ fst (steps (T "7") [Read 4 (Err (EOSError 13)) (Ok []) (Ok []); Read 4 (Ok tt) (Ok []) (Ok [])] ([], new_proc)) = []
  /\ held [Read 4 (Ok tt) (Ok (T "data")) (Ok []); Detach].
Proof.
  cbn zeta. repeat match goal with |- _ /\ _ => split end; try match goal with |- _ = _ => vm_compute; reflexivity end.
  - right. exists [T "cpu"], (T "now"), []. split; [reflexivity|]. split; [constructor; [intros [r R]; discriminate|constructor]|]. intros n N. vm_compute in N. discriminate.
  - exists [], 4, (Ok (T "data")), (Ok []), [Detach]. split; [reflexivity|]. split; [constructor|]. intros [E|[]]. discriminate.
Qed.
