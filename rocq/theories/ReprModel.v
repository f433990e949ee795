(** * Model of MultiValueDict.__repr__: request_parser/utils/datastructures.py:34-35

    [dict.__repr__] of Python 2.7 prints the keys and the lists that are stored
    under them; the values are byte strings, unicode objects, None, lists of
    such values, or uploaded files (uploadedfile.py:31-32).  An association
    list stands for the dictionary in its order of iteration; unicode is a
    wide build. *)
From Verif Require Import Py PyDict CodecModel MVDModel FileApiModel.

(** a digit of [%02x], [%04x], [%08x] *)
Definition rhex (d : N) : char := if N.ltb d 10 then (48 + d)%N else (87 + d)%N.
Fixpoint rhexs (n : nat) (c : N) : str :=
  match n with 0 => [] | S n' => rhexs n' (c / 16) ++ [rhex (c mod 16)] end.
(** one character of [repr] of a byte string or of a unicode object written with the quote [q] *)
Definition rchar (q c : char) : str :=
  if N.eqb c q || N.eqb c 92 then [92%N; c]
  else if N.eqb c 9 then !"\t"
  else if N.eqb c 10 then !"\n"
  else if N.eqb c 13 then !"\r"
  else if N.leb 32 c && N.ltb c 127 then [c]
  else if N.ltb c 256 then !"\x" ++ rhexs 2 c
  else if N.ltb c 65536 then !"\u" ++ rhexs 4 c
  else !"\U" ++ rhexs 8 c.
Definition rquote (s : str) : char :=
  if existsb (N.eqb 39) s && negb (existsb (N.eqb 34) s) then 34%N else 39%N.
Definition rtext (s : str) : str := let q := rquote s in [q] ++ flat_map (rchar q) s ++ [q].
Definition rpy (p : pystr) : str := match p with PB s => rtext s | PU s => 117%N :: rtext s end.

(** values that can be printed *)
Inductive rv := RStr (p : pystr) | RNone | RList (l : list rv) | RFile (cls name ctype : str).
Fixpoint rval (v : rv) : str :=
  match v with
  | RStr p => rpy p
  | RNone => !"None"
  | RList l => !"[" ++ join !", " (map rval l) ++ !"]"
  | RFile cls name ctype => upload_repr cls name ctype
  end.
Definition ritem (i : pystr * list rv) : str := rpy (fst i) ++ !": " ++ rval (RList (snd i)).
(** [__repr__] 34-35 of an object of the class [cls] *)
Definition mv_repr (cls : str) (d : list (pystr * list rv)) : str :=
  !"<" ++ cls ++ !": " ++ (!"{" ++ join !", " (map ritem d) ++ !"}") ++ !">".

(** a MultiValueDict of MVDModel.v: keys and atoms are byte strings *)
Fixpoint rv_of (v : val) : rv :=
  match v with VAtom s => RStr (PB s) | VNone => RNone | VList l => RList (map rv_of l) end.
Definition mvd_repr (h : heap) (d : mvd) : str :=
  mv_repr !"MultiValueDict" (map (fun i => (PB (fst i), map rv_of (snd i))) (mv_lists h d)).
