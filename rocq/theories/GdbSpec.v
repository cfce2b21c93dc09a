(** * GdbSpec: what the commands of the debugger are to do.  Independent of the model, except for its calls and lines. *)
From Coq Require Import ZArith List Ascii String Bool.
From Verif Require Import PyBase Platform IntModel DbgModel PyEval ExprModel GdbModel.
Import ListNotations.
Open Scope Z_scope.

(** ** hexdump *)
(** What a dump consists of: rows of bytes and gaps that cannot be read *)
Inductive item : Type := Row (address : Z) (bytes : list byte) | Gap (start stop : Z).
Definition item_start (i : item) : Z := match i with Row a _ => a | Gap a _ => a end.
Definition item_stop (i : item) : Z := match i with Row a s => a + zlen s | Gap _ b => b end.
(** The items follow each other from start to stop. *)
Inductive covers : list item -> Z -> Z -> Prop :=
| covers_nil a : covers [] a a
| covers_cons i l b : item_start i < item_stop i -> covers l (item_stop i) b -> covers (i :: l) (item_start i) b.
Definition is_gap (i : item) : bool := match i with Gap _ _ => true | _ => false end.
Fixpoint no_gaps_touch (l : list item) : Prop :=
  match l with
  | i :: l => (match l with j :: _ => is_gap i && is_gap j = false | [] => True end) /\ no_gaps_touch l
  | [] => True
  end.
(** The items are what the memory contains, in rows of [width] bytes up to [stop]. *)
Definition in_memory (read : Z -> Z -> res (list byte)) (width stop : Z) (i : item) : Prop :=
  match i with
  | Row a s => read a (Z.min width (stop - a)) = Ok s
  | Gap a b => (forall k, 0 <= k -> a + k * width < b -> exists e, read (a + k * width) (Z.min width (stop - (a + k * width))) = Err e)
  end.
(** The text of a row *)
Definition hex_char (n : Z) : ascii := nth (Z.to_nat n) (T "0123456789abcdef") "?"%char.
Definition hex_byte (c : ascii) : text := [hex_char (b2z c / 16); hex_char (b2z c mod 16)].
Definition shown_char (c : ascii) : ascii := if (32 <=? b2z c) && (b2z c <=? 126) then c else "."%char.
Definition pad_to (n : Z) (t : text) : text := t ++ repeat " "%char (Z.to_nat (n - zlen t)).
Definition item_line (p : platform) (width : Z) (i : item) : gline :=
  LText match i with
        | Row a s => formatAddress p a ++ T "| " ++ pad_to (3 * width - 1) (join (T " ") (map hex_byte s)) ++ T "| " ++ pad_to width (map shown_char s)
        | Gap a b => T "Warning: Unable to read memory " ++ formatWordHex p a ++ T "-" ++ formatWordHex p b
        end.
(** The lines logged, the oldest first *)
Fixpoint lines_of (h : list (gcall * ans)) : list gline :=
  match h with
  | [] => []
  | (CLog l, _) :: h => lines_of h ++ [l]
  | _ :: h => lines_of h
  end.
(** The bytes in a row for a terminal of [columns] columns *)
Definition row_bytes (p : platform) (columns : Z) : Z := Z.max ((columns - (if p_64bits p then 18 else 10) - 3) / 4) 1.

(** ** Signals *)
(** The signal that stopped a process, as announced to the user, until it has been passed on; 0: none.  The history has
    its latest call first. *)
Fixpoint pending (q : nat) (h : list (gcall * ans)) : Z :=
  match h with
  | [] => 0
  | (CLog (LInterrupted q' s), _) :: h => if Nat.eqb q' q then s else pending q h
  | (CCont q' s, AUnit) :: h => if Nat.eqb q' q && negb (s =? 0) then 0 else pending q h
  | _ :: h => pending q h
  end.
(** The processes continued, with their signals, the oldest first *)
Fixpoint continued (h : list (gcall * ans)) : list (nat * Z) :=
  match h with
  | [] => []
  | (CCont q s, AUnit) :: h => continued h ++ [(q, s)]
  | _ :: h => continued h
  end.

(** ** Command lines *)
(** All the commands succeed, one after the other. *)
Inductive succeed {S : Type} (exec : text -> S -> S * out bool) : list text -> S -> S -> Prop :=
| succeed_nil st : succeed exec [] st st
| succeed_cons c l st1 st2 st3 : exec (strip c) st1 = (st2, Ret true) -> succeed exec l st2 st3 -> succeed exec (c :: l) st1 st3.

(** ** Interruption *)
(** The signals sent, and the processes waited for, the oldest first *)
Fixpoint killed (h : list (gcall * ans)) : list (nat * Z) :=
  match h with
  | [] => []
  | (CKill q s, AUnit) :: h => killed h ++ [(q, s)]
  | _ :: h => killed h
  end.
Fixpoint waited (h : list (gcall * ans)) : list (nat * Z) :=
  match h with
  | [] => []
  | (CWait q s, _) :: h => waited h ++ [(q, s)]
  | _ :: h => waited h
  end.

(** ** Commands *)
(** Nothing has changed but the history. *)
Definition same (st st' : gstate) : Prop := g_process st' = g_process st /\ g_last st' = g_last st /\ g_follow st' = g_follow st /\ g_previous st' = g_previous st.
(** The integer that a text denotes for the user, with the registers and memory of the current process *)
Definition parse (p : platform) (eval : text -> res pyval) (env : list (gcall * ans) -> gcall -> ans) (st : gstate) (t : text) : res Z :=
  parseInteger p eval (fun name => peek env (g_hist st) (CGetReg (g_process st) name)) (fun a => peek env (g_hist st) (CReadWord (g_process st) a)) t.
(** Nothing has changed but the current process. *)
Definition rest_same (st st' : gstate) : Prop := g_last st' = g_last st /\ g_follow st' = g_follow st /\ g_previous st' = g_previous st.
(** The switch command, n times *)
Fixpoint switches (p : platform) (eval : text -> res pyval) (env : list (gcall * ans) -> gcall -> ans) (n : nat) : GM (option emsg) :=
  match n with O => gret None | S n => _ <-- switch p eval env []; switches p eval env n end.
(** The signal remembered for a process *)
Definition last_of (st : gstate) (q : nat) : Z := match dget Nat.eqb q (g_last st) with Some s => s | None => 0 end.
(** The signals remembered are those which have been announced and not passed on yet.  [w]: some may be forgotten *)
Definition sinv (w : bool) (st : gstate) : Prop := NoDup (map fst (g_last st)) /\ forall q, last_of st q = pending q (g_hist st) \/ (w = true /\ last_of st q = 0).
(** The signal to be passed to a process when the user continues with the signal s (0: none) *)
Definition chosen (st : gstate) (s : Z) (q : nat) : Z := if Nat.eqb q (g_process st) && negb (s =? 0) then s else pending q (g_hist st).
(** The user types the line t. *)
Definition reads (env : list (gcall * ans) -> gcall -> ans) (st : gstate) (t : text) : Prop :=
  env (g_hist st) CEcho = ABool false /\ env ((CEcho, ABool false) :: g_hist st) CInput = AText t.
Definition after_input (st : gstate) (t : text) : gstate := push CInput (AText t) (push CEcho (ABool false) st).
(** The commands: those which are a whole word, and those which have an argument *)
Definition words : list text := map T ["cont"; "proc"; "proclist"; "regs"; "stack"; "gcore"; "backtrace"; "where"; "where2"; "maps"; "dbginfo"; "step"; "stepi"; "sys"; "help"; "showfollow"; "resetfollow"; "xray"]%string.
Definition prefixes : list text := map T ["attach "; "where "; "where2 "; "set "; "until "; "switch"; "break "; "breakpoints"; "signals"; "delete "; "hexdump "; "signal "; "print "; "follow "]%string.

(** ** Steps *)
(** The breakpoint created by a step is being removed, unless the process could not be continued. *)
Definition removed (h : list (gcall * ans)) (id bp : nat) : Prop :=
  (exists set_ip r rest, h = (CDesinstall bp set_ip, r) :: rest) \/ (exists r rest, h = (CCont id 0, r) :: rest /\ r <> AUnit).

(** ** The end *)
(** The program has been ended by exit(), or the session does not end (within the fuel; or the environment gives
    answers of the wrong kind). *)
Definition gone (r : out unit) : Prop :=
  match r with Raise (XErr (ESystemExit _ | EDiverges | EUndefined)) => True | _ => False end.
