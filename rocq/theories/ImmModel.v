(** * Model of ImmutableMultiValueDict: request_parser/utils/datastructures.py:275-342

    Lists are values here (aliasing is the subject of MVDModel).  [self.method]
    calls inside MultiValueDict reach the overriding methods of this class. *)
From Verif Require Import Py PyDict MVDModel.

Record imm := mkImm { im_mut : bool; im_d : dict (list val) }.

(** argument of [setlist]/[setlistdefault] *)
Inductive ilarg := IlNone | IlList (l : list val) | IlOne (v : val).
Definition il_list (p : ilarg) : list val :=
  match p with IlNone => [] | IlList l => l | IlOne v => one_list v end.

Inductive iop :=
| ISetItem (k : str) (v : val)
| IDelItem (k : str)
| ISetList (k : str) (p : ilarg)
| ISetDefault (k : str) (v : val)
| ISetListDefault (k : str) (p : ilarg)
| IAppendList (k : str) (v : val)
| IUpdate (items : list (str * list val))     (* one positional argument, or only keywords *)
| IPop (k : str)
| IPopItem (k : str)                          (* Python chooses the item: [k] is its key *)
| IClear
| IMutable (b : bool).                        (* d._mutable = b *)

Definition im_set (k : str) (l : list val) (s : imm) : imm := mkImm (im_mut s) (dset k l (im_d s)).
Definition im_del (k : str) (s : imm) : imm := mkImm (im_mut s) (ddel k (im_d s)).

Definition iresult := (res (option (list val)) * imm)%type.
Definition inone : option (list val) := None.
Definition i_assert (s : imm) (r : iresult) : iresult :=                     (* 286-288 *)
  if im_mut s then r else (Err AttributeError, s).

Definition istep (o : iop) (s : imm) : iresult :=
  match o with
  | ISetItem k v =>                                                          (* 290-293: super stores [[v]] *)
      i_assert s (Ok inone, im_set k [VList [v]] s)
  | IDelItem k =>                                                            (* 295-297 *)
      i_assert s (if dmem k (im_d s) then (Ok inone, im_del k s) else (Err KeyError, s))
  | ISetList k p =>                                                          (* 312-318 *)
      i_assert s (Ok inone, im_set k (il_list p) s)
  | ISetDefault k v =>                                                       (* 320-325: returns None *)
      i_assert s (Ok inone, if dmem k (im_d s) then s else im_set k [VList [v]] s)
  | ISetListDefault k p =>                                                   (* 327-332: returns None *)
      i_assert s (Ok inone, if dmem k (im_d s) then s else im_set k (il_list p) s)
  | IAppendList k v =>                                                       (* 334-337 and 169-171: None.append *)
      i_assert s (Err AttributeError, if dmem k (im_d s) then s else im_set k [] s)
  | IUpdate _ =>                                                             (* 339-342: two positional arguments *)
      i_assert s (Err TypeError, s)
  | IPop k => match dget k (im_d s) with                                     (* inherited from dict *)
              | Some l => (Ok (Some l), im_del k s)
              | None => (Err KeyError, s)
              end
  | IPopItem k => match dget k (im_d s) with                                 (* inherited from dict *)
                  | Some l => (Ok (Some l), im_del k s)
                  | None => (Err KeyError, s)
                  end
  | IClear => (Ok inone, mkImm (im_mut s) [])                                (* inherited from dict *)
  | IMutable b => (Ok inone, mkImm b (im_d s))
  end.

Fixpoint irun (os : list iop) (s : imm) : imm :=
  match os with [] => s | o :: r => irun r (snd (istep o s)) end.
