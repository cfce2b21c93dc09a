(** * BindSpec: which arguments a function accepts, and what its parameters are then. *)
From Coq Require Import List Bool PArith Arith.
From Verif Require Import BindNames BindModel.
Import ListNotations.

(** The parameter [a] has no default value. *)
Definition needed (s : signature) (a : pname) : Prop :=
  (exists i, nth_error (s_args s) i = Some a /\ i < length (s_args s) - s_defaults s) \/ In (a, false) (s_only s).
Definition parameter (s : signature) (a : pname) : Prop := In a (s_args s) \/ In a (map fst (s_only s)).
(** A function can be called with [n] positional arguments and the keywords [keys] *)
Record accepted (s : signature) (n : nat) (keys : list pname) : Prop := {
  no_more : s_var s = false -> n <= length (s_args s);
  once : NoDup keys;
  not_twice : forall i a, nth_error (s_args s) i = Some a -> i < n -> ~ In a keys;
  known : forall a, In a keys -> s_kw s = false -> parameter s a;
  all_needed : forall a, needed s a -> (exists i, nth_error (s_args s) i = Some a /\ i < n) \/ In a keys }.
(** The value of the parameter [a]: from its position, by its name, or None (the default value) *)
Definition value_of {V} (s : signature) (vals : list V) (keys : list (pname * V)) (a : pname) (x : option V) : Prop :=
  (exists i v, nth_error (s_args s) i = Some a /\ nth_error vals i = Some v /\ x = Some v)
  \/ ((forall i, nth_error (s_args s) i = Some a -> length vals <= i) /\ exists v, In (a, v) keys /\ x = Some v)
  \/ ((forall i, nth_error (s_args s) i = Some a -> length vals <= i) /\ ~ In a (map fst keys) /\ x = None).
(** Python does not allow two parameters of the same name. *)
Definition well_formed (s : signature) : Prop := NoDup (s_args s ++ map fst (s_only s)) /\ s_defaults s <= length (s_args s).

(** The number of positional arguments of a call *)
Definition possible (c : count) (n : nat) : Prop := match c with Exactly k => n = k | AtLeast k => k <= n end.
(** The call finds a function, and none that it can find raises TypeError for its arguments, whatever their values. *)
Definition call_works (functions : list (pname * signature)) (classes : list cclass) (x : call) : Prop :=
  reached functions classes (c_target x) <> [] /\
  forall s (V : Type) (vals : list V) keys, In s (reached functions classes (c_target x)) -> (exists n, possible (c_count x) n /\ length vals = with_object (c_target x) + n) -> map fst keys = c_keys x ->
  exists f, bind s vals keys = Some f.
(** The class [k] has its own version [s] of a method for which its parent has [s0]. *)
Definition overrides (classes : list cclass) (k : cclass) (m : pname) (s s0 : signature) : Prop :=
  In k classes /\ In (m, s) (k_methods k) /\ exists p, k_parent k = Some p /\ In s0 (method classes p m).
