(** * PeerSpec: the attributes that code finds in objects of other classes, and in the options of the command line. *)
From Coq Require Import List PArith.
From Verif Require Import PyBase AttrNames AttrModel AttrCode AttrSpec PeerModel PeerCode.
Import ListNotations.
Open Scope attr_scope.

(** [d] is the class [c] or a class derived from it *)
Definition is_a (d c : attr) : Prop := In c (map c_name (parents classes d)).
(** The options of the programs, in the order in which they are added *)
Definition options_of (p : attr) : list optdef :=
  if Pos.eqb p "Gdb" then common_options ++ log_options                                      (* gdb.py 153-158 *)
  else if Pos.eqb p "Tracer" then itrace_options ++ common_options ++ strace_options ++ log_options  (* examples/itrace.py 22-26 *)
  else common_options ++ strace_options ++ log_options.                                      (* strace.py 38-80 *)
