(** * C123: an ImmutableList never changes, and every attempt raises its own warning *)
From Verif Require Import Py PyFacts ListModel.

(** Python 2.7's documentation of list: the operations of mutable sequence types (5.6.4) *)
Definition list_mutators : list str :=
  [ !"append"; !"extend"; !"insert"; !"pop"; !"remove"; !"reverse"; !"sort" ].
Definition attempts (s : stmt) : Prop :=
  match s with
  | Method name => In name list_mutators
  | _ => True
  end.
(** what the caller asked to be told *)
Definition told (w : option warning) : raised :=
  match w with
  | None => RAttr !"ImmutableList object is immutable."
  | Some (WText s) => RAttr s
  | Some (WExn e) => RExn e
  end.

Lemma execs_same : forall p l, execs p l = l.
Proof.
  induction p as [|s p IH]; intros l; [reflexivity|]. cbn [execs].
  assert (after (exec s l) l = l) as ->.
  { destruct s as [name| | |[]|[]|items|n]; try reflexivity.
    cbn [exec]. destruct (defines name); [reflexivity|]. now destruct (existsb (seqb name) tuple_methods). }
  apply IH.
Qed.

(** whatever is tried, in whatever order, the list is what it was made of; and every operation
    that would change a list raises what the creator of the list asked for *)
Theorem C123_immutable_list : forall items w p,
  il_items (execs p (il_new items w)) = items /\
  (forall s, attempts s -> exec s (execs p (il_new items w)) = Raises (told w)).
Proof.
  intros items w p. rewrite execs_same. split; [reflexivity|].
  intros s Hs.
  assert (forall l, exec s l = Raises (complain l)) as E.
  { intros l. destruct s as [name| | |[]|[]|its|n]; try reflexivity.
    cbn [attempts list_mutators In] in Hs.
    repeat (destruct Hs as [<-|Hs]; [reflexivity|]). destruct Hs. }
  rewrite E. now destruct w as [[|]|].
Qed.
Print Assumptions C123_immutable_list.

Example C123_case :
  let l := il_new [ !"h1"; !"h2" ] (Some (WExn RequestHeaderParseException)) in
  exec (Method !"append") l = Raises (RExn RequestHeaderParseException) /\
  exec (IAdd [ !"h3" ]) l = Raises (RExn RequestHeaderParseException) /\
  il_items (execs [Method !"pop"; SetSlice false; IAdd [ !"h3" ]; IMul 0] l) = [ !"h1"; !"h2" ].
Proof. vm_compute. auto. Qed.
