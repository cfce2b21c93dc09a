(** * TraceSpec: vocabulary for statements about backtraces and dumps. *)
From Coq Require Import ZArith List Ascii String Bool.
From Verif Require Import PyBase Platform TraceModel.
Import ListNotations.
Open Scope Z_scope.

(** A frame: return address and frame pointer.  The next frame: the saved frame pointer is at the frame pointer, the
    return address one word above; -1 marks the end of the stack. *)
Definition next_frame (p : platform) (read : Z -> res Z) (x y : Z * Z) : Prop :=
  read (snd x) = Ok (snd y) /\ snd y <> 0 /\ read (snd x + word_size p) = Ok (fst y) /\ fst y <> max_uint p.
Inductive chain (p : platform) (read : Z -> res Z) : Z * Z -> list (Z * Z) -> Z * Z -> Prop :=
| chain_one x : chain p read x [x] x
| chain_next x y l z : next_frame p read x y -> chain p read y l z -> chain p read x (x :: l) z.
(** How many arguments the frame may have: the words up to the next frame, at most [max_args] *)
Definition argument_count (p : platform) (read : Z -> res Z) (max_args fp : Z) : Z :=
  match read fp with
  | Ok next => if (fp =? 0) || (next =? 0) then 0 else Z.min ((next - fp) / word_size p - 2) max_args
  | Err _ => 0
  end.
(** [args] are the words from [fp] + 2 words on: [n] words, or those before the first unreadable one. *)
Definition argument_words (p : platform) (read : Z -> res Z) (fp : Z) (n : nat) (args : list Z) : Prop :=
  (List.length args <= n)%nat /\
  (forall i w, nth_error args i = Some w -> read (fp + (2 + Z.of_nat i) * word_size p) = Ok w) /\
  ((List.length args < n)%nat -> exists e, read (fp + (2 + zlen args) * word_size p) = Err e /\ is_ptrace_error e = true).

(** Reads and lines of a dump *)
Definition reads_of (l : list action) : list (Z * Z) := flat_map (fun a => match a with Read x n => [(x, n)] | Line _ => [] end) l.
Definition lines_of (l : list action) : list text := flat_map (fun a => match a with Line t => [t] | Read _ _ => [] end) l.
(** Instructions one after the other from [address]: at most [n], none after the first that reaches [stop].  At a
    breakpoint the bytes it replaced are decoded, elsewhere a window of memory.  The boolean: is it a breakpoint? *)
Inductive walk (D : disassembler) (read : Z -> Z -> res (list byte)) (breakpoints : list (Z * list byte)) (stop : option Z) :
  nat -> Z -> list (instruction * bool) -> Prop :=
| walk_full address : walk D read breakpoints stop O address []
| walk_last n address bp code instr rest :
    (dget Z.eqb address breakpoints = Some code /\ bp = true \/ dget Z.eqb address breakpoints = None /\ read address (ds_max D) = Ok code /\ bp = false) ->
    ds_decode D address code = instr :: rest -> (exists s, stop = Some s /\ s <= address + in_size instr) ->
    walk D read breakpoints stop (S n) address [(instr, bp)]
| walk_next n address bp code instr rest l :
    (dget Z.eqb address breakpoints = Some code /\ bp = true \/ dget Z.eqb address breakpoints = None /\ read address (ds_max D) = Ok code /\ bp = false) ->
    ds_decode D address code = instr :: rest -> (forall s, stop = Some s -> address + in_size instr < s) ->
    walk D read breakpoints stop n (address + in_size instr) l ->
    walk D read breakpoints stop (S n) address ((instr, bp) :: l).
