(** * RunMainSpec: the runs of the tests and the objects reported by runtests.py. *)
From Coq Require Import ZArith List Ascii String Bool.
From Verif Require Import PyBase RunModel RunMainModel.
Import ListNotations.
Open Scope Z_scope.

(** the tests given to each runner, in order *)
Fixpoint runs (acts : list act) : list (list text) :=
  match acts with
  | [] => []
  | ARun _ _ _ l :: acts => l :: runs acts
  | _ :: acts => runs acts
  end.
(** the objects reported, in order *)
Definition reported (leaks : list (text * list text)) : list text := flat_map snd leaks.
(** the objects the tests have made, in order *)
Definition made_by (tests : list one_test) : list text := flat_map t_garbage tests.
(** the report of a test that made something *)
Definition own_leak (t : one_test) : list (text * list text) :=
  match t_garbage t with [] => [] | l => [(t_name t, l)] end.
