(** * A MultiValueDict as a plain map from keys to lists of values.
    No heap, no addresses: every dictionary and every list of the caller is a value. *)
From Verif Require Import Py PyDict MVDModel.

Definition pmap := str -> option (list val).
Definition pempty : pmap := fun _ => None.
Definition pset (k : str) (x : option (list val)) (m : pmap) : pmap :=
  fun k' => if seqb k' k then x else m k'.
Definition plist (m : pmap) (k : str) : list val := match m k with Some l => l | None => [] end.

Record sworld := mkSW { s_dicts : list pmap; s_vars : list (list val) }.

Definition sarg_of (p : plarg) (w : sworld) : option (list val) :=
  match p with
  | PNone => Some []
  | POne VNone => Some []
  | POne (VList l) => Some l
  | POne v => Some [v]
  | PVar j => nth_error (s_vars w) j
  end.

Definition sput (i : nat) (m : pmap) (w : sworld) : sworld :=
  mkSW (set_nth i m (s_dicts w)) (s_vars w).

Definition get_last (m : pmap) (k : str) : out :=
  match m k with
  | None => OutErr KeyError
  | Some [] => OutVal (VList [])
  | Some l => OutVal (last l VNone)
  end.

Definition key_values (k : str) (l : list (str * val)) : list val :=
  map snd (filter (fun e => seqb (fst e) k) l).

(** values appended to the list of a key; a key without new values is untouched *)
Definition pextend (m : pmap) (k : str) (new : option (list val)) : option (list val) :=
  match new with None => m k | Some l => Some (plist m k ++ l) end.

Definition sstep (o : op) (w : sworld) : option (sworld * out) :=
  let on i (f : pmap -> option (sworld * out)) :=
    match nth_error (s_dicts w) i with None => None | Some m => f m end in
  match o with
  | NewDict => Some (mkSW (s_dicts w ++ [pempty]) (s_vars w), OutNone)
  | CopyDict i => on i (fun m => Some (mkSW (s_dicts w ++ [m]) (s_vars w), OutNone))
  | SetItem i k v => on i (fun m => Some (sput i (pset k (Some [v]) m) w, OutNone))
  | SetList i k p => on i (fun m => match sarg_of p w with
                                    | None => None
                                    | Some l => Some (sput i (pset k (Some l) m) w, OutNone)
                                    end)
  | GetList i k => on i (fun m => Some (mkSW (s_dicts w) (s_vars w ++ [plist m k]), OutList (plist m k)))
  | AppendList i k v => on i (fun m => Some (sput i (pset k (Some (plist m k ++ [v])) m) w, OutNone))
  | SetDefault i k v => on i (fun m =>
      match m k with
      | Some _ => Some (w, get_last m k)
      | None => Some (sput i (pset k (Some [v]) m) w, OutVal v)
      end)
  | SetListDefault i k p => on i (fun m =>
      match sarg_of p w with
      | None => None
      | Some l => match m k with
                  | Some l' => Some (w, OutList l')
                  | None => Some (sput i (pset k (Some l) m) w, OutList l)
                  end
      end)
  | UpdateMVD i i' => on i (fun m => on i' (fun m' =>
      Some (sput i (fun k => pextend m k (m' k)) w, OutNone)))
  | UpdateDict i l => on i (fun m =>
      Some (sput i (fun k => pextend m k (match key_values k l with [] => None | vs => Some vs end)) w, OutNone))
  | Pop i k => on i (fun m =>
      match m k with
      | None => Some (w, OutErr KeyError)
      | Some l => Some (mkSW (set_nth i (pset k None m) (s_dicts w)) (s_vars w ++ [l]), OutList l)
      end)
  | DelItem i k => on i (fun m =>
      match m k with
      | None => Some (w, OutErr KeyError)
      | Some _ => Some (sput i (pset k None m) w, OutNone)
      end)
  | Clear i => on i (fun m => Some (sput i pempty w, OutNone))
  | GetItem i k => on i (fun m => Some (w, get_last m k))
  | Get i k v => on i (fun m =>
      Some (w, OutVal (match m k with
                       | None | Some [] => v
                       | Some l => match last l VNone with VList [] => v | x => x end
                       end)))
  | NewList l => Some (mkSW (s_dicts w) (s_vars w ++ [l]), OutNone)
  | Mutate j f => match nth_error (s_vars w) j with
                  | None => None
                  | Some l => Some (mkSW (s_dicts w) (set_nth j (f l) (s_vars w)), OutNone)
                  end
  end.

Fixpoint srun (os : list op) (w : sworld) : option (sworld * list out) :=
  match os with
  | [] => Some (w, [])
  | o :: r => match sstep o w with
              | None => None
              | Some (w1, x) => option_map (fun p => (fst p, x :: snd p)) (srun r w1)
              end
  end.

Definition empty_sworld : sworld := mkSW [] [].

(** what a program can see of a world: for every dictionary and key its list of
    values, and the content of every list the caller holds *)
Definition same_view (w : world) (s : sworld) : Prop :=
  length (w_dicts w) = length (s_dicts s) /\
  (forall i d m k, nth_error (w_dicts w) i = Some d -> nth_error (s_dicts s) i = Some m ->
     option_map (hget (w_heap w)) (dget k d) = m k) /\
  map (hget (w_heap w)) (w_vars w) = s_vars s.
