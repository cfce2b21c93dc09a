(** * MapModel: memory mappings (ptrace/debugger/memory_mapping.py) and text files of /proc. *)
From Coq Require Import ZArith List Ascii String Bool.
From Verif Require Import PyBase Platform IntModel RegexModel.
Import ListNotations.
Open Scope Z_scope.

(** ** Text files *)

(** Python opens text files with universal newlines: "\r\n" and "\r" are read as "\n". *)
Definition CR : ascii := z2b 13.
Fixpoint universal_newlines (s : text) : text :=
  match s with
  | [] => []
  | c :: s =>
      if Ascii.eqb c CR then
        match s with
        | d :: s' => if Ascii.eqb d newline then newline :: universal_newlines s' else newline :: universal_newlines s
        | [] => [newline]
        end
      else c :: universal_newlines s
  end.
(** The lines of a text file: "for line in file" *)
Fixpoint file_lines (s : text) : list text :=
  match s with
  | [] => []
  | c :: s =>
      if Ascii.eqb c newline then [c] :: file_lines s
      else match file_lines s with
           | [] => [[c]]
           | l :: ls => (c :: l) :: ls
           end
  end.
(** The text of a file with the content [data].  [decode]: the encoding of the locale. *)
Definition text_of (decode : list byte -> res text) (data : list byte) : res text :=
  do t <- decode data; Ok (universal_newlines t).

(** ** Mappings *)

(** ptrace/debugger/memory_mapping.py 25-57.  The reference to the process is not part of the record. *)
Record mapping : Type := Mapping {
  mp_start : Z; mp_end : Z; mp_permissions : text; mp_offset : Z; mp_major : Z; mp_minor : Z; mp_inode : Z; mp_pathname : option text
}.
(** ptrace/debugger/memory_mapping.py 59-60 *)
Definition map_contains (m : mapping) (address : Z) : bool := (mp_start m <=? address) && (address <? mp_end m).
(** ptrace/debugger/memory_mapping.py 62-68 *)
Definition map_str (p : platform) (m : mapping) : text :=
  let t := formatAddress p (mp_start m) ++ T "-" ++ formatAddress p (mp_end m) in
  let t := match mp_pathname m with Some (c :: n) => t ++ T " => " ++ c :: n | _ => t end in
  t ++ T " (" ++ mp_permissions m ++ T ")".

(** ptrace/debugger/memory_mapping.py 70-101.  [read] = process.readBytes.  The yielded addresses, and how the
    generator ends.  The comparison of data with "" (line 91) is never true: data is a byte string. *)
Section Search.
  Context (read : Z -> Z -> res (list byte)) (bytestr : list byte).
  Definition buf_len : Z := if 64 * 1024 <? zlen bytestr then zlen bytestr else 64 * 1024.
  Fixpoint search_loop (fuel : nat) (covered remaining : Z) : list Z * res unit :=
    if zlen bytestr <=? remaining then
      match fuel with
      | O => ([], Err EDiverges)
      | S fuel =>
          let requested := if buf_len <? remaining then buf_len else remaining in
          match read covered requested with
          | Err e => ([], Err e)
          | Ok data =>
              match find_sub bytestr data with
              | None =>
                  let skip := requested - zlen bytestr + 1 in
                  search_loop fuel (covered + skip) (remaining - skip)
              | Some offset =>
                  let skip := Z.of_nat offset + zlen bytestr in
                  let '(found, r) := search_loop fuel (covered + skip) (remaining - skip) in
                  ((covered + Z.of_nat offset) :: found, r)
              end
          end
      end
    else ([], Ok tt).
  Definition search (m : mapping) : list Z * res unit :=
    search_loop (Z.to_nat (mp_end m - mp_start m)) (mp_start m) (mp_end m - mp_start m).
End Search.

(** ptrace/debugger/memory_mapping.py 10-22 *)
Definition hex_digits : regex := rplus (RSet is_hex_lower).
Definition device : regex := rrange 2 3 (RSet is_hex_lower).
Definition space : regex := rchar " "%char.
Definition PROC_MAP_REGEX : regex :=
  rcat [RGroup 1 hex_digits; rchar "-"%char; RGroup 2 hex_digits; space;
        RGroup 3 (rtimes 4 rdot); space;
        RGroup 4 hex_digits; space;
        RGroup 5 device; rchar ":"%char; RGroup 6 device; space;
        RGroup 7 (rplus (RSet is_digit));
        ropt (RCat (rplus space) (RGroup 8 (RStar rdot)))].
(** int(match.group(n), base) *)
Definition int_group (n : nat) (base : Z) (m : rmatch) : res Z :=
  match group n (m_groups m) with
  | Some t => match read_uint base t with Some v => Ok v | None => Err EValueError end
  | None => Err ETypeError
  end.
Definition text_group (n : nat) (m : rmatch) : text := match group n (m_groups m) with Some t => t | None => [] end.
(** ptrace/debugger/memory_mapping.py 121-137: one line *)
Definition parse_mapping (line : text) : res mapping :=
  let line := rstrip line in
  match re_match PROC_MAP_REGEX line with
  | None => Err EProcessError
  | Some m =>
      do start <- int_group 1 16 m;
      do end_ <- int_group 2 16 m;
      do offset <- int_group 4 16 m;
      do major <- int_group 5 16 m;
      do minor <- int_group 6 16 m;
      do inode <- int_group 7 10 m;
      Ok (Mapping start end_ (text_group 3 m) offset major minor inode (group 8 (m_groups m)))
  end.
(** ptrace/debugger/memory_mapping.py 104-139.  [file]: the content of /proc/<pid>/maps, or the error of open(). *)
Definition readProcessMappings (p : platform) (decode : list byte -> res text) (file : res (list byte)) : res (list mapping) :=
  if negb (running_linux p) then Ok []
  else match file with
       | Err (EOSError _) => Err EProcessError
       | Err e => Err e
       | Ok data =>
           do t <- text_of decode data;
           mapM parse_mapping (file_lines t)
       end.

(** ptrace/debugger/process.py 285-289: the result of readMappings() is an argument *)
Definition findStack (maps : list mapping) : option mapping :=
  find (fun m => match mp_pathname m with Some n => text_eqb n (T "[stack]") | None => false end) maps.
(** ptrace/debugger/process.py 700-704: the lines written to the log *)
Definition dumpMaps (p : platform) (maps : list mapping) : list text := map (fun m => T "MAPS: " ++ map_str p m) maps.
