(** * Independent specification of the streams: a byte string with a cursor.
    Nothing here mentions leftovers, histories or chunk bookkeeping. *)
From Verif Require Import Py.

(** operations a caller performs and what the caller observes *)
Inductive sop := ORead (n : option Z) | ONext | OUnget (b : str) | OTell.
Inductive sout := RBytes (b : str) | RUnit | RPos (z : Z) | RStop | RExn (e : exn).

(** the abstract stream: bytes still ahead, position *)
Definition cursor := (str * Z)%type.

(** [E]: may [next()] return an empty string?  [L]: the default size of [read()]. *)
Inductive cur_step (E : Prop) (L : option Z) : cursor -> sop -> sout -> cursor -> Prop :=
| cs_read r p n m : match n with Some _ => n | None => L end = Some m -> (0 <= m)%Z ->
    cur_step E L (r, p) (ORead n) (RBytes (firstn (Z.to_nat m) r))
             (skipn (Z.to_nat m) r, (p + Z.min m (zlen r))%Z)
| cs_read_neg r p n m : match n with Some _ => n | None => L end = Some m -> (m < 0)%Z ->
    cur_step E L (r, p) (ORead n) (RExn AssertionError) (r, p)
| cs_read_all r p : L = None ->
    cur_step E L (r, p) (ORead None) (RBytes r) ([], (p + zlen r)%Z)
| cs_next c r p : (c = [] -> E) ->
    cur_step E L (c ++ r, p) ONext (RBytes c) (r, (p + zlen c)%Z)
| cs_next_end p :
    cur_step E L ([], p) ONext RStop ([], p)
| cs_unget b r p :
    cur_step E L (r, p) (OUnget b) RUnit (b ++ r, (p - zlen b)%Z)
| cs_tell r p :
    cur_step E L (r, p) OTell (RPos p) (r, p).

Inductive cur_run (E : Prop) (L : option Z) : cursor -> list sop -> list sout -> cursor -> Prop :=
| cr_nil c : cur_run E L c [] [] c
| cr_cons c o r c1 os rs c2 : cur_step E L c o r c1 -> cur_run E L c1 os rs c2 ->
    cur_run E L c (o :: os) (r :: rs) c2.

(** ** The "stuck" guard, from the history of what happened.
    [g_buf]: bytes currently pushed back; [g_push]: sizes of all pushbacks since
    the producer last delivered data, newest first. *)
Record ghost := { g_buf : nat; g_push : list nat }.
Definition ghost0 : ghost := {| g_buf := 0; g_push := [] |}.

Definition ghost_step (g : ghost) (o : sop) (r : sout) : ghost :=
  match o, r with
  | ONext, RBytes _ =>
      if Nat.eqb (g_buf g) 0 then ghost0                       (* the producer delivered *)
      else {| g_buf := 0; g_push := g_push g |}
  | OUnget (c :: t), RUnit =>
      {| g_buf := length (c :: t) + g_buf g; g_push := length (c :: t) :: g_push g |}
  | OUnget (c :: t), RExn _ =>
      {| g_buf := g_buf g; g_push := length (c :: t) :: g_push g |}
  | _, _ => g
  end.

(** the last 50 pushbacks, the new one included, contain its size more than 40 times *)
Definition stuck (g : ghost) (n : nat) : Prop :=
  40 < count_occ Nat.eq_dec (firstn 50 (n :: g_push g)) n.

(** every [unget] of a non-empty string raises exactly when it is stuck *)
Inductive guarded : ghost -> list sop -> list sout -> Prop :=
| gd_nil g : guarded g [] []
| gd_other g o r os rs : (forall b, o <> OUnget b) ->
    r <> RExn SuspiciousMultipartForm ->
    guarded (ghost_step g o r) os rs -> guarded g (o :: os) (r :: rs)
| gd_unget g b r os rs :
    (r = RExn SuspiciousMultipartForm /\ b <> [] /\ stuck g (length b) \/
     r = RUnit /\ (b = [] \/ ~ stuck g (length b))) ->
    guarded (ghost_step g (OUnget b) r) os rs -> guarded g (OUnget b :: os) (r :: rs).
