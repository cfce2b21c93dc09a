(** * MemModel: memory access of ptrace/debugger/process.py (lines 504-673, 706-710). *)
From Coq Require Import ZArith List Ascii String Bool.
From Verif Require Import PyBase Platform IntModel CallModel.
Import ListNotations.
Open Scope Z_scope.

(** ** The traced process as the kernel sees it (not part of the repository)

    [k_byte a] is the byte at address [a], if mapped; [k_pokable a] tells whether
    PTRACE_POKETEXT may change it. *)
Record kmem : Type := KMem {
  k_byte : Z -> option byte;
  k_pokable : Z -> bool
}.
Definition EIO : Z := 5.
Definition ESRCH : Z := 3.
Definition EACCES : Z := 13.

(** The [n] bytes at [a], if all are mapped. *)
Fixpoint k_bytes (k : kmem) (a : Z) (n : nat) : option (list byte) :=
  match n with
  | O => Some []
  | S n => match k_byte k a, k_bytes k (a + 1) n with
           | Some b, Some bs => Some (b :: bs)
           | _, _ => None
           end
  end.
(** Longest mapped prefix of the [n] bytes at [a]. *)
Fixpoint k_prefix (k : kmem) (a : Z) (n : nat) : list byte :=
  match n with
  | O => []
  | S n => match k_byte k a with Some b => b :: k_prefix k (a + 1) n | None => [] end
  end.
(** Byte number [i] in memory of the word [w]. *)
Definition word_byte (p : platform) (w i : Z) : byte :=
  z2b (w / 256 ^ (if p_bigendian p then word_size p - 1 - i else i)).
(** Value of the word stored as the bytes [bs]. *)
Definition stored_word (p : platform) (bs : list byte) : Z :=
  fold_left (fun acc b => acc * 256 + b2z b) (if p_bigendian p then bs else rev bs) 0.

Definition poke_ok (p : platform) (k : kmem) (a : Z) : bool :=
  forallb (fun i => match k_byte k (a + i) with Some _ => k_pokable k (a + i) | None => false end)
          (zrange (Z.to_nat (word_size p))).

(** Answer to PTRACE_PEEKTEXT/PEEKDATA (1, 2) and PTRACE_POKETEXT/POKEDATA (4, 5). *)
Definition kmem_answer (p : platform) (pid : Z) (k : kmem) (rq : request) : kernel_result :=
  if negb (rq_pid rq =? pid) then KErr ESRCH
  else if (rq_command rq =? 1) || (rq_command rq =? 2) then
    match k_bytes k (rq_arg1 rq) (Z.to_nat (word_size p)) with
    | Some bs => KOk (stored_word p bs)
    | None => KErr EIO
    end
  else if (rq_command rq =? 4) || (rq_command rq =? 5) then
    if poke_ok p k (rq_arg1 rq) then KOk 0 else KErr EIO
  else KErr EIO.
(** Memory after a request. *)
Definition kmem_apply (p : platform) (pid : Z) (k : kmem) (rq : request) : kmem :=
  if (rq_pid rq =? pid) && ((rq_command rq =? 4) || (rq_command rq =? 5)) && poke_ok p k (rq_arg1 rq) then
    KMem (fun a => if (rq_arg1 rq <=? a) && (a <? rq_arg1 rq + word_size p)
                   then Some (word_byte p (rq_arg2 rq) (a - rq_arg1 rq))
                   else k_byte k a)
         (k_pokable k)
  else k.

(** ** The PtraceProcess object

    [s_file] is the attribute read_mem_file, [s_fallback] tells that the instance attribute
    readBytes was set to _readBytes. *)
Inductive mem_file : Type := FileNone | FileOpen | FileClosed.
Record pstate : Type := PState {
  s_mem : kmem;
  s_file : mem_file;
  s_fallback : bool
}.
Definition set_mem (s : pstate) (k : kmem) : pstate := PState k (s_file s) (s_fallback s).
Definition set_file (s : pstate) (f : mem_file) : pstate := PState (s_mem s) f (s_fallback s).
Definition set_fallback (s : pstate) : pstate := PState (s_mem s) (s_file s) true.

(** What does not change while a process is debugged.  [e_open]: outcome of
    open("/proc/pid/mem"); [e_read k a n]: outcome of read(n) on that file positioned at [a] while the
    memory is [k].  The libc is taken to clear errno after a PEEK (see CallModel). *)
Record penv : Type := PEnv {
  e_be : backend;
  e_p : platform;
  e_pid : Z;
  e_open : res unit;
  e_read : kmem -> Z -> Z -> res (list byte)
}.

(** State and exception monad *)
Definition M (A : Type) : Type := pstate -> pstate * res A.
Definition ret {A} (a : A) : M A := fun s => (s, Ok a).
Definition raise {A} (e : exn) : M A := fun s => (s, Err e).
Definition mbind {A B} (m : M A) (f : A -> M B) : M B :=
  fun s => match m s with
           | (s, Ok a) => f a s
           | (s, Err e) => (s, Err e)
           end.
Definition lift {A} (r : res A) : M A := fun s => (s, r).
Notation "x <~ m ; f" := (mbind m (fun x => f)) (at level 100, m at level 99, right associativity).

Section Process.
  Context (E : penv).
  Let p := e_p E.
  Let W := word_size p.

  (** Make the calls of [c] against the memory. *)
  Definition run_call {A} (c : (request -> kernel_result) -> call A) : M A :=
    fun s =>
      let '(rqs, r) := c (kmem_answer p (e_pid E) (s_mem s)) in
      (set_mem s (fold_left (kmem_apply p (e_pid E)) rqs (s_mem s)), r).

  (** ptrace/debugger/process.py 538-541 *)
  Definition readWord (address : Z) : M Z :=
    run_call (fun kernel => ptrace_peektext (e_be E) p true 0 kernel (e_pid E) address).
  (** ptrace/debugger/process.py 706-710 *)
  Definition writeWord (address word : Z) : M unit :=
    run_call (fun kernel => ptrace_poketext (e_be E) p true 0 kernel (e_pid E) address word).

  (** ptrace/debugger/process.py 522-535: the while loop.  The fuel is an upper bound on the number
      of iterations; running out of it would be reported as non-termination. *)
  Fixpoint readBytes_loop (fuel : nat) (data : list byte) (address size : Z) : M (list byte) :=
    match fuel with
    | O => raise EDiverges
    | S fuel =>
        if size =? 0 then ret data
        else
          word <~ readWord address;
          bytes <~ lift (word2bytes p word);
          if size <? W then ret (data ++ pyslice None (Some size) bytes)
          else readBytes_loop fuel (data ++ bytes) (address + W) (size - W)
    end.
  (** ptrace/debugger/process.py 504-536 *)
  Definition readBytes_ptrace (address size : Z) : M (list byte) :=
    let offset := address mod W in
    if negb (offset =? 0) then
      let address := address - offset in
      word <~ readWord address;
      bytes <~ lift (word2bytes p word);
      let subsize := Z.min (W - offset) size in
      let data := pyslice (Some offset) (Some (offset + subsize)) bytes in
      readBytes_loop (S (Z.to_nat size)) data (address + W) (size - subsize)
    else readBytes_loop (S (Z.to_nat size)) [] address size.

  (** ptrace/debugger/process.py 543-552 (HAS_PTRACE_IO).  The kernel copies the mapped
      prefix and fails when there is none; the count it reports is ignored and
      the buffer was zero-initialised. *)
  Definition readBytes_io (address size : Z) : M (list byte) :=
    fun s =>
      if size <? 0 then (s, Err EValueError)
      else
        let n := Z.to_nat size in
        let got := k_prefix (s_mem s) (truncateWord p address) n in
        if (List.length got =? 0)%nat && negb (size =? 0) then (s, Err (EPtraceError (Some EIO)))
        else (s, Ok (got ++ repeat (z2b 0) (n - List.length got))).

  (** ptrace/debugger/process.py 553-585 (HAS_PROC).  Seeking to 2^63 or beyond raises OverflowError, which
      the except clause does not list; a negative offset or a closed file raise exceptions that it lists. *)
  Definition readBytes_procmem (address size : Z) : M (list byte) :=
    fun s =>
      let s := match s_file s, e_open E with
               | FileNone, Ok _ => set_file s FileOpen
               | _, _ => s
               end in
      match s_file s with
      | FileNone =>
          match e_open E with
          | Err (EOSError _) => readBytes_ptrace address size (set_fallback s)
          | Err e => (s, Err e)
          | Ok _ => (s, Err EUndefined)
          end
      | FileClosed => (s, Err EProcessError)
      | FileOpen =>
          if 2 ^ 63 <=? address then (s, Err EOverflowError)
          else if address <? 0 then (s, Err EProcessError)
          else match e_read E (s_mem s) address size with
               | Err (EOSError _) => (s, Err EProcessError)
               | Err EValueError => (s, Err EProcessError)
               | Err e => (s, Err e)
               | Ok data =>
                   if (zlen data =? 0) && negb (size =? 0)
                   then readBytes_ptrace address size (set_fallback s)
                   else (s, Ok data)
               end
      end.

  (** ptrace/debugger/process.py 543-587: which definition is used *)
  Definition readBytes (address size : Z) : M (list byte) :=
    fun s =>
      if has_ptrace_io p then readBytes_io address size s
      else if has_proc p then
        if s_fallback s then readBytes_ptrace address size s else readBytes_procmem address size s
      else readBytes_ptrace address size s.

  (** ptrace/debugger/process.py 622-631: full words *)
  Fixpoint writeBytes_loop (fuel : nat) (address : Z) (bytes : list byte) : M (Z * list byte) :=
    match fuel with
    | O => raise EDiverges
    | S fuel =>
        if W <=? zlen bytes then
          word <~ lift (bytes2word p (pyslice None (Some W) bytes));
          _ <~ writeWord address word;
          writeBytes_loop fuel (address + W) (pyslice (Some W) None bytes)
        else ret (address, bytes)
    end.
  (** ptrace/debugger/process.py 622-640 *)
  Definition writeBytes_aligned (address : Z) (bytes : list byte) : M unit :=
    ab <~ writeBytes_loop (S (List.length bytes)) address bytes;
    let '(address, bytes) := ab in
    if zlen bytes =? 0 then ret tt
    else
      word <~ readBytes address W;
      w <~ lift (bytes2word p (bytes ++ pyslice (Some (zlen bytes)) None word));
      writeWord address w.
  (** ptrace/debugger/process.py 604-640 (not HAS_PTRACE_IO) *)
  Definition writeBytes_ptrace (address : Z) (bytes : list byte) : M unit :=
    let offset := address mod W in
    if negb (offset =? 0) then
      let address := address - offset in
      let size := W - offset in
      word <~ readBytes address W;
      let '(size, word) :=
        if zlen bytes <? size then
          let size := zlen bytes in
          (size, pyslice None (Some offset) word ++ pyslice None (Some size) bytes
                 ++ pyslice (Some (offset + size)) None word)
        else (size, pyslice None (Some offset) word ++ pyslice None (Some size) bytes) in
      w <~ lift (bytes2word p word);
      _ <~ writeWord address w;
      writeBytes_aligned (address + W) (pyslice (Some size) None bytes)
    else writeBytes_aligned address bytes.
  (** ptrace/debugger/process.py 594-603 (HAS_PTRACE_IO): the kernel copies a prefix, the
      count it reports is ignored *)
  Fixpoint io_write (k : kmem) (a : Z) (bytes : list byte) : kmem * nat :=
    match bytes with
    | [] => (k, O)
    | b :: bs =>
        match k_byte k a with
        | Some _ =>
            if k_pokable k a then
              let k := KMem (fun x => if x =? a then Some b else k_byte k x) (k_pokable k) in
              let (k, n) := io_write k (a + 1) bs in (k, S n)
            else (k, O)
        | None => (k, O)
        end
    end.
  Definition writeBytes_io (address : Z) (bytes : list byte) : M unit :=
    fun s =>
      let (k, n) := io_write (s_mem s) (truncateWord p address) bytes in
      if (n =? 0)%nat && negb (zlen bytes =? 0) then (s, Err (EPtraceError (Some EIO)))
      else (set_mem s k, Ok tt).
  (** ptrace/debugger/process.py 594-640 *)
  Definition writeBytes (address : Z) (bytes : list byte) : M unit :=
    if has_ptrace_io p then writeBytes_io address bytes else writeBytes_ptrace address bytes.

  (** ptrace/debugger/process.py 642-645 with ptrace/ctypes_tools.py 174-178: a structure of [size]
      bytes is the raw content of the buffer; a shorter buffer is read past its end. *)
  Definition readStruct (address size : Z) : M (list byte) :=
    bytes <~ readBytes address size;
    if zlen bytes <? size then raise EUndefined else ret (pyslice None (Some size) bytes).
  (** ptrace/debugger/process.py 647-650 with ptrace/ctypes_tools.py 181-186: element [i] of the array, as raw
      bytes *)
  Definition readArray (address size count : Z) : M (list (list byte)) :=
    bytes <~ readBytes address (size * count);
    if zlen bytes <? size * count then raise EUndefined
    else ret (map (fun i => pyslice (Some (i * size)) (Some ((i + 1) * size)) bytes)
                  (zrange (Z.to_nat count))).

  (** ptrace/debugger/process.py 652-673.  The loop ends because the size grows by
      chunk_length until max_size. *)
  Definition find_nul (data : list byte) : option nat := find_sub [z2b 0] data.
  Fixpoint readCString_loop (fuel : nat) (string : list byte) (address max_size size chunk_length : Z)
    : M (list byte * bool) :=
    match fuel with
    | O => raise EDiverges
    | S fuel =>
        data <~ readBytes address chunk_length;
        let '(done, data) := match find_nul data with
                             | Some pos => (true, firstn pos data)
                             | None => (false, data)
                             end in
        if max_size <=? size + chunk_length then
          ret (string ++ pyslice None (Some (max_size - size)) data, true)
        else if done then ret (string ++ data, false)
        else readCString_loop fuel (string ++ data) (address + chunk_length) max_size
               (size + chunk_length) chunk_length
    end.
  Definition readCString (address max_size chunk_length : Z) : M (list byte * bool) :=
    readCString_loop (S (Z.to_nat max_size)) [] address max_size 0 chunk_length.
End Process.
