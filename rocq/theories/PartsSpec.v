(** * Reading all parts of a body one after the other (claim C21)

    [read_parts] is the client of BoundaryIter: it takes the parts in order, reads each
    of them with an arbitrary pattern of calls and then to its end. *)
From Verif Require Import Py Spec StreamModel BoundaryModel BoundarySpec.

(** one call on the stream of a part: read(n), read(), next() *)
Inductive rcall := RdN (n : nat) | RdAll | RdNext.
(** what it gives: bytes, or StopIteration, or another exception *)
Inductive rout := RoBytes (b : str) | RoStop | RoErr (e : exn).

Section Client.
  Context {P : Type} (pnext : P -> nxt * P) (fuel : nat) (D : str).

  Definition part_call (c : rcall) (s : lstream (biter P)) : rout * lstream (biter P) :=
    match c with
    | RdN n => match ls_read (bi_next pnext fuel) fuel (Some (Z.of_nat n)) s with
               | (Ok b, s) => (RoBytes b, s) | (Err e, s) => (RoErr e, s) end
    | RdAll => match ls_read (bi_next pnext fuel) fuel None s with
               | (Ok b, s) => (RoBytes b, s) | (Err e, s) => (RoErr e, s) end
    | RdNext => match ls_next (bi_next pnext fuel) s with
                | (Chunk b, s) => (RoBytes b, s) | (Stop, s) => (RoStop, s) | (Raise e, s) => (RoErr e, s) end
    end.
  Fixpoint part_calls (cs : list rcall) (s : lstream (biter P)) : list rout * lstream (biter P) :=
    match cs with
    | [] => ([], s)
    | c :: r => let (o, s1) := part_call c s in
                let (os, s2) := part_calls r s1 in (o :: os, s2)
    end.
  (** [pats]: the pattern of calls for each part; each part is then read to its end *)
  Fixpoint read_parts (n : nat) (pats : nat -> list rcall) (s : lstream P) : list (list rout) :=
    match n with
    | 0 => []
    | S n' =>
        match bi_init pnext fuel s D with
        | (Err _, _) => []
        | (Ok b, s1) =>
            let (os, s2) := part_calls (pats 0 ++ [RdAll]) (ls_init b None) in
            os :: read_parts n' (fun i => pats (S i))
                    (match ls_prod s2 with Some b => bi_stream b | None => s1 end)
        end
    end.
End Client.

(** what the calls must give when the part holds [t] *)
Inductive delivers : list rcall -> str -> list rout -> Prop :=
| dl_nil t : delivers [] t []
| dl_n n r t os : delivers r (skipn n t) os -> delivers (RdN n :: r) t (RoBytes (firstn n t) :: os)
| dl_all r t os : delivers r [] os -> delivers (RdAll :: r) t (RoBytes t :: os)
| dl_next r b t os : delivers r t os -> delivers (RdNext :: r) (b ++ t) (RoBytes b :: os)
| dl_stop r os : delivers r [] os -> delivers (RdNext :: r) [] (RoStop :: os).

(** the pieces of a body between the delimiters *)
Inductive pieces (D : str) : str -> list str -> Prop :=
| pc_nil : pieces D [] []
| pc_last r : r <> [] -> ~ occurs D r -> pieces D r [r]
| pc_cut r u v ts : r <> [] -> first_occ D r u v -> pieces D v ts -> pieces D r (trim_eol u :: ts).
