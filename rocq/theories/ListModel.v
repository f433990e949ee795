(** * Model of ImmutableList (request_parser/utils/datastructures.py:234-273) *)
From Verif Require Import Py.

(** the [warning] of a list is any object: an Exception instance or something else (249-251) *)
Inductive warning := WText (s : str) | WExn (e : exn).
Record imlist := mkIml { il_items : list str; il_warning : warning }.

(** [__new__] 248-252: the [warning] keyword is optional; everything else goes to tuple *)
Definition il_new (items : list str) (w : option warning) : imlist :=
  mkIml items (match w with Some w => w | None => WText !"ImmutableList object is immutable." end).

(** what is raised: an AttributeError with a given argument, or a given exception *)
Inductive raised := RAttr (msg : str) | RExn (e : exn).

(** [complain] 254-258 *)
Definition complain (l : imlist) : raised :=
  match il_warning l with
  | WExn e => RExn e
  | WText s => RAttr s
  end.

(** the class body, 260-273: the names bound to [complain] *)
Definition class_body : list str :=
  [ !"__delitem__"; !"__delslice__"; !"__iadd__"; !"__imul__"; !"__setitem__"; !"__setslice__";
    !"append"; !"extend"; !"insert"; !"pop"; !"remove"; !"sort"; !"reverse" ].
Definition defines (name : str) : bool := existsb (seqb name) class_body.

(** the public methods of the base class, tuple: none of them changes the tuple *)
Definition tuple_methods : list str := [ !"count"; !"index" ].

(** what can be done with a variable [x] that holds the list *)
Inductive stmt :=
| Method (name : str)                    (* x.name(...), any arguments *)
| SetItem                                (* x[i] = v *)
| DelItem                                (* del x[i] *)
| SetSlice (extended : bool)             (* x[i:j] = v; extended: x[i:j:k] = v *)
| DelSlice (extended : bool)
| IAdd (items : list str)                (* x += items, where items is a tuple *)
| IMul (n : nat).                        (* x *= n *)

(** what a statement does: it raises, or gives a value that [x] keeps or [x] is rebound to *)
Inductive outcome := Raises (r : raised) | Keeps | Rebinds (items : list str).

Definition mutate (name : str) (missing : raised) (l : imlist) : outcome :=
  if defines name then Raises (complain l) else Raises missing.

Definition exec (s : stmt) (l : imlist) : outcome :=
  match s with
  | Method name =>
      if defines name then Raises (complain l)
      else if existsb (seqb name) tuple_methods then Keeps
      else Raises (RAttr (!"'ImmutableList' object has no attribute '" ++ name ++ !"'"))
  (* Python 2.7 uses __setslice__ and __delslice__ for x[i:j] and the item methods otherwise *)
  | SetItem | SetSlice true => mutate !"__setitem__" (RExn TypeError) l
  | DelItem | DelSlice true => mutate !"__delitem__" (RExn TypeError) l
  | SetSlice false => if defines !"__setslice__" then Raises (complain l) else mutate !"__setitem__" (RExn TypeError) l
  | DelSlice false => if defines !"__delslice__" then Raises (complain l) else mutate !"__delitem__" (RExn TypeError) l
  (* without the in-place method Python computes x + items and binds x to it *)
  | IAdd items => if defines !"__iadd__" then Raises (complain l) else Rebinds (il_items l ++ items)
  | IMul n => if defines !"__imul__" then Raises (complain l) else Rebinds (concat (repeat (il_items l) n))
  end.

(** a program that catches whatever is raised: what [x] holds afterwards *)
Definition after (o : outcome) (l : imlist) : imlist :=
  match o with
  | Rebinds items => mkIml items (il_warning l)
  | _ => l
  end.
Fixpoint execs (p : list stmt) (l : imlist) : imlist :=
  match p with [] => l | s :: r => execs r (after (exec s l) l) end.
