(** * DecodeModel: ptrace/pydistorm.py and the part of ptrace/disasm.py that uses it (when distorm3 is not installed). *)
From Coq Require Import ZArith List Ascii String Bool.
From Verif Require Import PyBase TraceModel.
Import ListNotations.
Open Scope Z_scope.

(** 61-71: _DecodedInst; the three texts are the arrays of bytes up to the first NUL *)
Record dinst : Type := DInst { di_mnemonic : list byte; di_operands : list byte; di_hex : list byte; di_size : Z; di_offset : Z }.
(** 41-44 *)
Definition DECRES_NONE : Z := 0.
Definition DECRES_SUCCESS : Z := 1.
Definition DECRES_MEMORYERR : Z := 2.
Definition DECRES_INPUTERR : Z := 3.
Definition MAX_INSTRUCTIONS : Z := 100.
(** How the generator ends: normally, ValueError, MemoryError, never, or the library was given a length below zero *)
Inductive decode_end : Type := DDone | DValueError | DMemoryError | DNever | DOutside.

Section Decode.
  (** internal_decode(offset, code, length, dt, result, maximum, count): the code from the pointer on, the largest number of
      instructions; the result code and the instructions written *)
  Context (internal_decode : Z -> list byte -> Z -> Z * list dinst).
  (** 81-127: the instructions yielded.  The loop over codeLen is bounded by [fuel]. *)
  Fixpoint decode_loop (fuel : nat) (codeOffset : Z) (code : list byte) (codeLen : Z) : list dinst * decode_end :=
    match fuel with
    | O => ([], DNever)
    | S fuel =>
        if codeLen =? 0 then ([], DDone)
        else if codeLen <? 0 then ([], DOutside)
        else
          let (r, result) := internal_decode codeOffset code MAX_INSTRUCTIONS in
          if r =? DECRES_INPUTERR then ([], DValueError)
          else if (r =? DECRES_MEMORYERR) && (zlen result =? 0) then ([], DMemoryError)
          else if zlen result =? 0 then ([], DDone)
          else
            let size := fold_left (fun size i => size + di_size i) result 0 in
            let (l, e) := decode_loop fuel (codeOffset + size) (skipn (Z.to_nat size) code) (codeLen - size) in
            (result ++ l, e)
    end.
  Definition Decode (fuel : nat) (codeOffset : Z) (code : list byte) : list dinst * decode_end := decode_loop fuel codeOffset code (zlen code).

  (** 95, 118-122: the instructions yielded are views of one array, filled again by every call.  A caller that keeps them
      (list(Decode(...))) reads in the end what the last call wrote to the same place of the array. *)
  Fixpoint decode_batches (fuel : nat) (codeOffset : Z) (code : list byte) (codeLen : Z) : list (list dinst) :=
    match fuel with
    | O => []
    | S fuel =>
        if codeLen <=? 0 then []
        else
          let (r, result) := internal_decode codeOffset code MAX_INSTRUCTIONS in
          if (r =? DECRES_INPUTERR) || (zlen result =? 0) then []
          else
            let size := fold_left (fun size i => size + di_size i) result 0 in
            result :: decode_batches fuel (codeOffset + size) (skipn (Z.to_nat size) code) (codeLen - size)
    end.
  (** The array after writing [new] at its beginning *)
  Definition overwrite (array new : list dinst) : list dinst := new ++ skipn (List.length new) array.
  Definition kept (batches : list (list dinst)) : list dinst :=
    let array := fold_left overwrite batches [] in
    flat_map (fun batch => firstn (List.length batch) array) batches.
  Definition Decode_list (fuel : nat) (codeOffset : Z) (code : list byte) : list dinst := kept (decode_batches fuel codeOffset code (zlen code)).

  (** 57-59: __str__ returns self.p, a bytes object; str() then raises TypeError (Python 3) *)
  Definition wstring_str (p : list byte) : res text := Err ETypeError.
  (** disasm.py 45-52 *)
  Definition instruction_of (i : dinst) : res instruction :=
    do hexa <- wstring_str (di_hex i);
    do mnemonic <- wstring_str (di_mnemonic i);
    do operands <- wstring_str (di_operands i);
    Ok (Instr (di_offset i) (di_size i) (mnemonic ++ T " " ++ operands) hexa).
  (** disasm.py 65-72 with this library: the first instruction *)
  Definition disassembleOne_fallback (fuel : nat) (code : list byte) (address : Z) : res instruction :=
    match Decode fuel address code with
    | (i :: _, _) => instruction_of i
    | ([], DDone) => Err (EPtraceError None)
    | ([], DValueError) => Err EValueError
    | ([], DNever) => Err EDiverges
    | ([], _) => Err EUndefined
    end.
End Decode.
