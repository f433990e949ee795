(** * Small declarative vocabulary used by the property statements.
    Nothing here refers to the model of the code. *)
From Verif Require Import Py.

(** [p] occurs in [s] *)
Definition occurs (p s : str) : Prop := exists u v, s = u ++ p ++ v.

(** [s = u ++ p ++ v] and this is the leftmost occurrence of [p] *)
Definition first_occ (p s u v : str) : Prop :=
  s = u ++ p ++ v /\ forall u' v', s = u' ++ p ++ v' -> length u <= length u'.

(** [v] is a suffix of [s] *)
Definition suffix (v s : str) : Prop := exists u, s = u ++ v.
