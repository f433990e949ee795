(** * MultiValueDict: the operations that share list objects between the dictionary and
    its caller, and the other ways to copy: request_parser/utils/datastructures.py:9-192 *)
From Verif Require Import Py PyDict MVDModel.

(** the constructor 31-32 (inherited from dict): the lists of the mapping are stored, not copied *)
Fixpoint mv_from (l : list (str * nat)) (acc : mvd) : mvd :=
  match l with [] => acc | (k, a) :: r => mv_from r (dset k a acc) end.

(** [__deepcopy__] 63-74: [memo] maps the lists already copied to their copies *)
Fixpoint find_addr (a : nat) (memo : list (nat * nat)) : option nat :=
  match memo with
  | [] => None
  | (x, y) :: r => if Nat.eqb x a then Some y else find_addr a r
  end.
Fixpoint mv_deepcopy (items : list (str * nat)) (memo : list (nat * nat)) (h : heap) (acc : mvd) : heap * mvd :=
  match items with
  | [] => (h, acc)
  | (k, r) :: rest =>
      match find_addr r memo with
      | Some a => mv_deepcopy rest memo h (dset k a acc)
      | None => let (a, h) := halloc h (hget h r) in mv_deepcopy rest ((r, a) :: memo) h (dset k a acc)
      end
  end.

Inductive op2 :=
| Base (o : op)
| NewFrom (l : list (str * nat))               (* MultiValueDict({k: list, ...}) with lists of the caller *)
| ListsOf (i : nat)                            (* the lists delivered by lists(), 181-183 *)
| ListDefault (i : nat) (k : str) (p : plarg)  (* setlistdefault, keeping the list it returns, 157-167 *)
| GetListOr (i : nat) (k : str) (j : nat)      (* getlist(k, default) with a list of the caller, 107-131 *)
| DeepCopy (i : nat)                           (* copy.deepcopy(d) *)
| Pickle (i : nat).                            (* pickle.dumps(d): __getstate__ puts a dict into a set, 76-79 *)

Fixpoint addrs_of (w : world) (l : list (str * nat)) : option (list (str * nat)) :=
  match l with
  | [] => Some []
  | (k, j) :: r => match nth_error (w_vars w) j, addrs_of w r with
                   | Some a, Some r => Some ((k, a) :: r)
                   | _, _ => None
                   end
  end.

Definition step2 (o : op2) (w : world) : option (world * out) :=
  let h := w_heap w in
  let on i (f : mvd -> option (world * out)) :=
    match nth_error (w_dicts w) i with None => None | Some d => f d end in
  match o with
  | Base o => step o w
  | NewFrom l => match addrs_of w l with
                 | None => None
                 | Some l => Some (mkW h (w_dicts w ++ [mv_from l []]) (w_vars w), OutNone)
                 end
  | ListsOf i => on i (fun d => Some (mkW h (w_dicts w) (w_vars w ++ map snd d), OutNone))
  | ListDefault i k p => on i (fun d =>
      match larg_of p w with
      | None => None
      | Some p => match mv_setlistdefault k p h d with
                  | (a, (h, d)) => Some (mkW h (set_nth i d (w_dicts w)) (w_vars w ++ [a]), OutList (hget h a))
                  end
      end)
  | GetListOr i k j => on i (fun d =>
      match dget k d, nth_error (w_vars w) j with
      | Some a, Some _ => let (a, h) := halloc h (hget h a) in
                          Some (mkW h (w_dicts w) (w_vars w ++ [a]), OutList (hget h a))
      | None, Some a => Some (mkW h (w_dicts w) (w_vars w ++ [a]), OutList (hget h a))
      | _, None => None
      end)
  | DeepCopy i => on i (fun d => let (h, c) := mv_deepcopy d [] h [] in
                                 Some (mkW h (w_dicts w ++ [c]) (w_vars w), OutNone))
  | Pickle i => on i (fun _ => Some (w, OutErr TypeError))
  end.

Fixpoint run2 (os : list op2) (w : world) : option world :=
  match os with
  | [] => Some w
  | o :: r => match step2 o w with
              | None => None
              | Some (w1, _) => run2 r w1
              end
  end.
