(** * Model of __setstate__: request_parser/utils/datastructures.py:81-92 and 299-310,
    and of QueryDict under it: request_parser/http/request.py:599-776.

    Lists live in the heap of MVDModel.v; the state is the dictionary given by
    the caller, with its entry '_data' and the attributes. *)
From Verif Require Import Py PyDict MVDModel.

Record pstate := mkPS { ps_data : option (dict larg); ps_attrs : dict val }.

(** [for k, v in data.items(): self.setlist(k, v)]  86-88, 304-306 *)
Fixpoint set_lists (items : dict larg) (h : heap) (d : mvd) : heap * mvd :=
  match items with
  | [] => (h, d)
  | (k, p) :: r => let (h, d) := mv_setlist k p h d in set_lists r h d
  end.
(** [self.__dict__.update(obj_dict)]  92, 310 *)
Definition set_attrs (new attrs : dict val) : dict val := fold_left (fun a e => dset (fst e) (snd e) a) new attrs.

(** [__setstate__] of MultiValueDict, and of ImmutableMultiValueDict, which calls the setlist of
    MultiValueDict and so asks nobody whether it may change.  [obj_dict.pop] takes the data out of
    the caller's dictionary.  Result: the heap, the dictionary, its attributes, the caller's state. *)
Definition mv_setstate (s : pstate) (h : heap) (d : mvd) (attrs : dict val) : heap * mvd * dict val * pstate :=
  let data := match ps_data s with Some l => l | None => [] end in           (* 84, 302 *)
  let (h, d) := set_lists data h d in
  (h, d, set_attrs (ps_attrs s) attrs, mkPS None (ps_attrs s)).

(** [__setstate__] of a QueryDict that was made without its constructor, as unpickling does: the class
    attributes say mutable, and the encoding is not known (616-617).  [setlist] (694-698) asks for
    [self.encoding], this for [self.settings] (657-661), which is among the attributes that are set
    last: AttributeError.  With an encoding the lists could be set. *)
Definition qd_setstate (s : pstate) : res (dict val) :=
  match ps_data s with
  | Some (_ :: _) => Err AttributeError
  | _ => Ok (set_attrs (ps_attrs s) [])
  end.
