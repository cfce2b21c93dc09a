(** * PeerModel: the attributes of the options of the module optparse of Python. *)
From Coq Require Import List Ascii String Bool.
From Verif Require Import PyBase.
Import ListNotations.

(** parser.add_option(names, dest=...) *)
Record optdef : Type := Option { o_names : list text; o_dest : option text }.
Definition is_long (n : text) : bool := match n with "-" :: "-" :: _ => true | _ => false end%char.
Definition underscores (t : text) : text := map (fun c => if Ascii.eqb c "-" then "_"%char else c) t.
(** optparse.Option._check_dest(): dest, or the first long name without its two first characters and with _ instead of -, or the letter of the first short name *)
Definition dest (o : optdef) : text :=
  match o_dest o with
  | Some d => d
  | None =>
      match find is_long (o_names o) with
      | Some n => underscores (skipn 2 n)
      | None => match o_names o with n :: _ => firstn 1 (skipn 1 n) | [] => [] end
      end
  end.
(** The attributes of the object returned by OptionParser.parse_args(): every option has one (its default value, or None, if it is not given) *)
Definition values (l : list optdef) : list text := map dest l.
