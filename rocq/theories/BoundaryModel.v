(** * Model of BoundaryIter: request_parser/http/multipartparser.py:342-473 *)
From Verif Require Import Py StreamModel.

(** [s[:e]] for any integer [e] *)
Definition slice_to (e : Z) (s : str) : str :=
  if Z.ltb e 0 then firstn (length s - Z.to_nat (- e)) s else firstn (Z.to_nat e) s.

(** [data[i:i+1] == c] *)
Definition char_at (i : nat) (c : char) (data : str) : bool :=
  match nth_error data i with Some x => N.eqb x c | None => false end.

(** [_find_boundary]  multipartparser.py:451-473 *)
Definition find_boundary (D data : str) : option (Z * nat) :=
  match find D data with
  | None => None
  | Some i =>
      let e := Z.of_nat i in
      let e := if char_at (Z.to_nat (e - 1)) LF data then (e - 1)%Z else e in     (* 467-469 *)
      let e := if char_at (Z.to_nat (e - 1)) CR data then (e - 1)%Z else e in     (* 470-472 *)
      Some (e, i + length D)
  end.

Section Boundary.
  Context {P : Type} (pnext : P -> nxt * P).

  Record biter := mkBI { bi_stream : lstream P; bi_boundary : str; bi_done : bool }.

  Definition rollback (D : str) : nat := length D + 6.                             (* 384 *)

  (** [BoundaryIter.__init__]  378-393: peeks one byte *)
  Definition bi_init (fuel : nat) (s : lstream P) (D : str) : res biter * lstream P :=
    match ls_read pnext fuel (Some 1%Z) s with
    | (Err e, s1) => (Err e, s1)
    | (Ok [], s1) => (Err InputStreamExhausted, s1)
    | (Ok c, s1) => match ls_unget c s1 with
                    | (Err e, s2) => (Err e, s2)
                    | (Ok _, s2) => (Ok (mkBI s2 D false), s2)
                    end
    end.

  (** the [for ... else] of lines 408-417: the chunks, and whether the stream ended *)
  Fixpoint bi_collect (fuel rb read : nat) (acc : list str) (s : lstream P)
    : res (list str * bool) * lstream P :=
    match fuel with
    | 0 => (Err OutOfFuel, s)
    | S f =>
        match ls_next pnext s with
        | (Stop, s1) => (Ok (acc, true), s1)
        | (Raise e, s1) => (Err e, s1)
        | (Chunk c, s1) =>
            let read' := read + length c in
            let acc' := acc ++ [c] in
            if Nat.ltb rb read' then (Ok (acc', false), s1)
            else match c with
                 | [] => (Ok (acc', false), s1)
                 | _ => bi_collect f rb read' acc' s1
                 end
        end
    end.

  (** [BoundaryIter.next]  399-449 *)
  Definition bi_next (fuel : nat) (b : biter) : nxt * biter :=
    let D := bi_boundary b in
    if bi_done b then (Stop, b)
    else
      match bi_collect fuel (rollback D) 0 [] (bi_stream b) with
      | (Err e, s1) => (Raise e, mkBI s1 D false)
      | (Ok (chunks, ended), s1) =>
          match chunks with
          | [] => (Stop, mkBI s1 D ended)
          | _ =>
              let chunk := concat chunks in
              match find_boundary D chunk with
              | Some (e, next) =>
                  match ls_unget (skipn next chunk) s1 with
                  | (Err x, s2) => (Raise x, mkBI s2 D ended)
                  | (Ok _, s2) => (Chunk (slice_to e chunk), mkBI s2 D true)
                  end
              | None =>
                  match upto_neg (rollback D) chunk with
                  | [] => (Chunk chunk, mkBI s1 D true)
                  | c => match ls_unget (from_neg (rollback D) chunk) s1 with
                         | (Err x, s2) => (Raise x, mkBI s2 D ended)
                         | (Ok _, s2) => (Chunk c, mkBI s2 D ended)
                         end
                  end
              end
          end
      end.
End Boundary.
Arguments biter : clear implicits.
Arguments mkBI {P}.
