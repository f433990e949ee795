(** * Model of MultiValueDict: request_parser/utils/datastructures.py:9-232

    Lists are mutable objects: a heap maps addresses to list contents and a
    dictionary maps keys to addresses.  Values that are themselves lists are
    treated as immutable values.  [__repr__] (34-35) is in ReprModel.v.  Not modelled: pickling
    (76-92: [__getstate__] always raises TypeError in Python 2), keyword
    arguments of [update] (handled like the pairs of a plain dictionary). *)
From Verif Require Import Py PyDict.

Inductive val := VAtom (s : str) | VNone | VList (l : list val).

(** ** The heap *)
Definition heap := list (list val).
Definition hget (h : heap) (a : nat) : list val := nth a h [].
Fixpoint hset (h : heap) (a : nat) (l : list val) : heap :=
  match h, a with
  | [], _ => []
  | _ :: t, 0 => l :: t
  | x :: t, S a' => x :: hset t a' l
  end.
Definition halloc (h : heap) (l : list val) : nat * heap := (length h, h ++ [l]).

Definition mvd := dict nat.

(** the last element, or [] for an empty list: datastructures.py:46-49 *)
Fixpoint last_val (l : list val) : val :=
  match l with [] => VList [] | [v] => v | _ :: r => last_val r end.

(** [__getitem__] 37-49 *)
Definition mv_getitem (k : str) (h : heap) (d : mvd) : res val :=
  match dget k d with
  | None => Err KeyError
  | Some a => Ok (last_val (hget h a))
  end.

(** [__setitem__] 51-53 *)
Definition mv_setitem (k : str) (v : val) (h : heap) (d : mvd) : heap * mvd :=
  let (a, h) := halloc h [v] in (h, dset k a d).

(** [val == []] *)
Definition is_nil_val (v : val) : bool := match v with VList [] => true | _ => false end.

(** [get] 94-105 *)
Definition mv_get (k : str) (default : val) (h : heap) (d : mvd) : val :=
  match mv_getitem k h d with
  | Err _ => default
  | Ok v => if is_nil_val v then default else v
  end.

(** [getlist] 107-131 with [default=None]: always a fresh list *)
Definition mv_getlist (k : str) (h : heap) (d : mvd) : nat * heap :=
  match dget k d with
  | None => halloc h []
  | Some a => halloc h (hget h a)
  end.

(** argument of [setlist] and [setlistdefault]: None, a list object, or any other value *)
Inductive larg := LNone | LRef (a : nat) | LOne (v : val).
(** what [setlist] makes of a value given directly, 138-144: None, a list display, anything else *)
Definition one_list (v : val) : list val := match v with VNone => [] | VList l => l | VAtom s => [VAtom s] end.

(** [setlist] 133-145 *)
Definition mv_setlist (k : str) (p : larg) (h : heap) (d : mvd) : heap * mvd :=
  let (a, h) := match p with
                | LNone => halloc h []
                | LRef r => halloc h (hget h r)
                | LOne v => halloc h (one_list v)
                end in
  (h, dset k a d).

(** [setdefault] 147-155 *)
Definition mv_setdefault (k : str) (v : val) (h : heap) (d : mvd) : res val * (heap * mvd) :=
  let (h, d) := if dmem k d then (h, d) else mv_setitem k v h d in
  (mv_getitem k h d, (h, d)).

(** [setlistdefault] 157-167; the result is the stored list itself *)
Definition mv_setlistdefault (k : str) (p : larg) (h : heap) (d : mvd) : nat * (heap * mvd) :=
  let (h, d) :=
    if dmem k d then (h, d)
    else match p with
         | LNone => let (r, h) := halloc h [] in mv_setlist k (LRef r) h d
         | _ => mv_setlist k p h d
         end in
  match dget k d with
  | Some a => (a, (h, d))
  | None => let (a, h) := halloc h [] in (a, (h, d))       (* not reachable *)
  end.

(** [appendlist] 169-171 *)
Definition mv_appendlist (k : str) (v : val) (h : heap) (d : mvd) : heap * mvd :=
  match mv_setlistdefault k LNone h d with
  | (a, (h, d)) => (hset h a (hget h a ++ [v]), d)
  end.

(** [update] with a MultiValueDict, 203-207: [items] is the snapshot delivered by [lists()] *)
Fixpoint mv_update_lists (items : list (str * nat)) (h : heap) (d : mvd) : heap * mvd :=
  match items with
  | [] => (h, d)
  | (k, r) :: rest =>
      match mv_setlistdefault k LNone h d with
      | (a, (h, d)) => mv_update_lists rest (hset h a (hget h a ++ hget h r)) d
      end
  end.

(** [update] with another dictionary or keyword arguments, 209-228 *)
Fixpoint mv_update_pairs (items : list (str * val)) (h : heap) (d : mvd) : heap * mvd :=
  match items with
  | [] => (h, d)
  | (k, v) :: rest =>
      match mv_setlistdefault k LNone h d with
      | (a, (h, d)) => mv_update_pairs rest (hset h a (hget h a ++ [v])) d
      end
  end.

(** [__copy__] and [copy] 55-61, 190-192: each list is copied *)
Fixpoint mv_copy_lists (items : list (str * nat)) (h : heap) (acc : mvd) : heap * mvd :=
  match items with
  | [] => (h, acc)
  | (k, r) :: rest => let (a, h) := halloc h (hget h r) in mv_copy_lists rest h (dset k a acc)
  end.
Definition mv_copy (h : heap) (d : mvd) : heap * mvd := mv_copy_lists d h [].

(** reading methods: [items] 173-179, [lists] 181-183, [values] 185-188, [dict] 230-232 *)
Definition mv_items (h : heap) (d : mvd) : list (str * val) :=
  map (fun e => (fst e, last_val (hget h (snd e)))) d.
Definition mv_lists (h : heap) (d : mvd) : list (str * list val) :=
  map (fun e => (fst e, hget h (snd e))) d.
Definition mv_values (h : heap) (d : mvd) : list val :=
  map (fun e => last_val (hget h (snd e))) d.

(** ** Programs: any number of dictionaries and of lists held by the caller.
    [vars] are the lists the caller may mutate: those it created, those returned
    by [getlist] and those returned by [pop]. *)
Record world := mkW { w_heap : heap; w_dicts : list mvd; w_vars : list nat }.

Inductive plarg := PNone | PVar (j : nat) | POne (v : val).

Inductive op :=
| NewDict                                (* MultiValueDict() *)
| CopyDict (i : nat)
| SetItem (i : nat) (k : str) (v : val)
| SetList (i : nat) (k : str) (p : plarg)
| GetList (i : nat) (k : str)
| AppendList (i : nat) (k : str) (v : val)
| SetDefault (i : nat) (k : str) (v : val)
| SetListDefault (i : nat) (k : str) (p : plarg)
| UpdateMVD (i i' : nat)
| UpdateDict (i : nat) (l : list (str * val))
| Pop (i : nat) (k : str)                (* inherited from dict: the list itself *)
| DelItem (i : nat) (k : str)            (* inherited from dict *)
| Clear (i : nat)                        (* inherited from dict *)
| GetItem (i : nat) (k : str)
| Get (i : nat) (k : str) (v : val)
| NewList (l : list val)
| Mutate (j : nat) (f : list val -> list val).   (* append, clear, sort, ... on a list *)

Inductive out := OutNone | OutVal (v : val) | OutList (l : list val) | OutErr (e : exn).

Fixpoint set_nth {A} (n : nat) (x : A) (l : list A) : list A :=
  match l, n with
  | [], _ => []
  | _ :: t, 0 => x :: t
  | y :: t, S n' => y :: set_nth n' x t
  end.

Definition put (i : nat) (hd : heap * mvd) (w : world) : world :=
  mkW (fst hd) (set_nth i (snd hd) (w_dicts w)) (w_vars w).

Definition larg_of (p : plarg) (w : world) : option larg :=
  match p with
  | PNone => Some LNone
  | POne v => Some (LOne v)
  | PVar j => option_map LRef (nth_error (w_vars w) j)
  end.

(** [None]: the program names a dictionary or a list that does not exist *)
Definition step (o : op) (w : world) : option (world * out) :=
  let h := w_heap w in
  let on i (f : mvd -> option (world * out)) :=
    match nth_error (w_dicts w) i with None => None | Some d => f d end in
  match o with
  | NewDict => Some (mkW h (w_dicts w ++ [[]]) (w_vars w), OutNone)
  | CopyDict i => on i (fun d => let (h, c) := mv_copy h d in
                                 Some (mkW h (w_dicts w ++ [c]) (w_vars w), OutNone))
  | SetItem i k v => on i (fun d => Some (put i (mv_setitem k v h d) w, OutNone))
  | SetList i k p => on i (fun d =>
      match larg_of p w with
      | None => None
      | Some p => Some (put i (mv_setlist k p h d) w, OutNone)
      end)
  | GetList i k => on i (fun d => let (a, h) := mv_getlist k h d in
                                  Some (mkW h (w_dicts w) (w_vars w ++ [a]), OutList (hget h a)))
  | AppendList i k v => on i (fun d => Some (put i (mv_appendlist k v h d) w, OutNone))
  | SetDefault i k v => on i (fun d =>
      match mv_setdefault k v h d with
      | (Ok x, hd) => Some (put i hd w, OutVal x)
      | (Err e, hd) => Some (put i hd w, OutErr e)
      end)
  | SetListDefault i k p => on i (fun d =>
      match larg_of p w with
      | None => None
      | Some p => match mv_setlistdefault k p h d with
                  | (a, hd) => Some (put i hd w, OutList (hget (fst hd) a))
                  end
      end)
  | UpdateMVD i i' => on i (fun d => on i' (fun d' => Some (put i (mv_update_lists d' h d) w, OutNone)))
  | UpdateDict i l => on i (fun d => Some (put i (mv_update_pairs l h d) w, OutNone))
  | Pop i k => on i (fun d =>
      match dget k d with
      | None => Some (w, OutErr KeyError)
      | Some a => Some (mkW h (set_nth i (ddel k d) (w_dicts w)) (w_vars w ++ [a]), OutList (hget h a))
      end)
  | DelItem i k => on i (fun d =>
      match dget k d with
      | None => Some (w, OutErr KeyError)
      | Some a => Some (put i (h, ddel k d) w, OutNone)
      end)
  | Clear i => on i (fun d => Some (put i (h, []) w, OutNone))
  | GetItem i k => on i (fun d =>
      Some (w, match mv_getitem k h d with Ok v => OutVal v | Err e => OutErr e end))
  | Get i k v => on i (fun d => Some (w, OutVal (mv_get k v h d)))
  | NewList l => let (a, h) := halloc h l in Some (mkW h (w_dicts w) (w_vars w ++ [a]), OutNone)
  | Mutate j f => match nth_error (w_vars w) j with
                  | None => None
                  | Some a => Some (mkW (hset h a (f (hget h a))) (w_dicts w) (w_vars w), OutNone)
                  end
  end.

Fixpoint run (os : list op) (w : world) : option (world * list out) :=
  match os with
  | [] => Some (w, [])
  | o :: r => match step o w with
              | None => None
              | Some (w1, x) => option_map (fun p => (fst p, x :: snd p)) (run r w1)
              end
  end.

Definition empty_world : world := mkW [] [] [].
