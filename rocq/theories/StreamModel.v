(** * Model of the byte streams: request_parser/utils/datastructures.py:344-481 *)
From Verif Require Import Py.

(** What [next(it)] does: return a byte string, raise StopIteration, or raise
    something else. *)
Inductive nxt := Chunk (c : str) | Stop | Raise (e : exn).

(** ** The raw input: any object with [read(n)].
    A source is the list of what the operating system still delivers: byte
    segments and failures.  [read(n)] returns at most [n] bytes of the next
    non-empty segment (short reads are allowed), and [''] only at end of file or
    for [n = 0].  A single segment is a [BytesIO] or a regular file. *)
Inductive item := SData (d : str) | SFail (e : exn).
Definition src := list item.

Fixpoint src_read (n : nat) (s : src) : res str * src :=
  match s with
  | [] => (Ok [], [])
  | SData [] :: r => src_read n r
  | SData d :: r =>
      (Ok (firstn n d), match skipn n d with [] => r | d' => SData d' :: r end)
  | SFail e :: r => (Err e, r)
  end.

(** [read()] / [read(-1)]: everything up to end of file *)
Fixpoint src_readall (s : src) : res str * src :=
  match s with
  | [] => (Ok [], [])
  | SData d :: r => match src_readall r with
                    | (Ok t, s') => (Ok (d ++ t), s')
                    | (Err e, s') => (Err e, s')
                    end
  | SFail e :: r => (Err e, r)
  end.

(** ** ChunkIter  datastructures.py:460-481 *)
Record chunkiter (R : Type) := mkCI { ci_flo : R; ci_size : nat }.
Arguments mkCI {R}.
Arguments ci_flo {R}.
Arguments ci_size {R}.

(** [ChunkIter.next]  datastructures.py:470-478, over any object with a [read]
    method [rd].  [InputStreamExhausted] from [flo.read] is turned into
    StopIteration; other exceptions pass through. *)
Definition ci_next {R} (rd : nat -> R -> res str * R) (ci : chunkiter R) : nxt * chunkiter R :=
  match rd (ci_size ci) (ci_flo ci) with
  | (Ok [], s) => (Stop, mkCI s (ci_size ci))
  | (Ok d, s) => (Chunk d, mkCI s (ci_size ci))
  | (Err InputStreamExhausted, s) => (Stop, mkCI s (ci_size ci))
  | (Err e, s) => (Raise e, mkCI s (ci_size ci))
  end.

(** ** An iterator that delivers byte strings: what [HttpRequest] is given as its
    stream ([LazyStream(request_stream)], request.py:64).  For a [BytesIO] or a
    file the strings are the lines of the content; every cutting is allowed. *)
Definition it_next (s : src) : nxt * src :=
  match s with
  | [] => (Stop, [])
  | SData d :: r => (Chunk d, r)
  | SFail e :: r => (Raise e, r)
  end.

(** ** LazyStream  datastructures.py:344-458 *)
Section LazyStream.
  Context {P : Type} (pnext : P -> nxt * P).

  (** The attributes [_producer], [_leftover], [position], [_unget_history],
      [_remaining] (datastructures.py:359-365); [_empty] and [length] are never
      read.  [ls_prod = None] is the empty list which [close()] stores. *)
  Record lstream := mkLS {
    ls_prod : option P;
    ls_left : str;
    ls_pos : Z;
    ls_hist : list nat;
    ls_remaining : option Z }.

  (** [LazyStream.__init__]  datastructures.py:352-365 *)
  Definition ls_init (p : P) (length : option Z) : lstream :=
    mkLS (Some p) [] 0%Z [] length.

  (** [LazyStream.tell]  datastructures.py:367-368 *)
  Definition ls_tell (s : lstream) : Z := ls_pos s.

  (** [LazyStream.next]  datastructures.py:398-412.  [next([])] is a TypeError:
      a list is not an iterator. *)
  Definition ls_next (s : lstream) : nxt * lstream :=
    match ls_left s with
    | [] =>
        match ls_prod s with
        | None => (Raise TypeError, s)
        | Some p =>
            match pnext p with
            | (Chunk c, p') =>
                (Chunk c, mkLS (Some p') [] (ls_pos s + zlen c)%Z [] (ls_remaining s))
            | (r, p') => (r, mkLS (Some p') [] (ls_pos s) (ls_hist s) (ls_remaining s))
            end
        end
    | l => (Chunk l, mkLS (ls_prod s) [] (ls_pos s + zlen l)%Z (ls_hist s) (ls_remaining s))
    end.

  (** [LazyStream.close]  datastructures.py:414-421 *)
  Definition ls_close (s : lstream) : lstream :=
    mkLS None (ls_left s) (ls_pos s) (ls_hist s) (ls_remaining s).

  (** [LazyStream._update_unget_history] and [LazyStream.unget]
      datastructures.py:426-458 *)
  Definition ls_unget (b : str) (s : lstream) : res unit * lstream :=
    match b with
    | [] => (Ok tt, s)
    | _ =>
        let h := length b :: firstn 49 (ls_hist s) in
        if Nat.ltb 40 (count_occ Nat.eq_dec h (length b))
        then (Err SuspiciousMultipartForm,
              mkLS (ls_prod s) (ls_left s) (ls_pos s) h (ls_remaining s))
        else (Ok tt,
              mkLS (ls_prod s) (b ++ ls_left s) (ls_pos s - zlen b)%Z h (ls_remaining s))
    end.

  (** the loop of [LazyStream.read]  datastructures.py:381-392 *)
  Fixpoint ls_read_loop (fuel : nat) (remaining : Z) (out : str) (s : lstream)
    : res str * lstream :=
    match fuel with
    | 0 => (Err OutOfFuel, s)
    | S f =>
        if Z.eqb remaining 0 then (Ok out, s)
        else if Z.ltb remaining 0 then (Err AssertionError, s)
        else match ls_next s with
             | (Stop, s1) => (Ok out, s1)
             | (Raise e, s1) => (Err e, s1)
             | (Chunk c, s1) =>
                 let emitting := firstn (Z.to_nat remaining) c in
                 match ls_unget (skipn (Z.to_nat remaining) c) s1 with
                 | (Err e, s2) => (Err e, s2)
                 | (Ok _, s2) =>
                     ls_read_loop f (remaining - zlen emitting)%Z (out ++ emitting) s2
                 end
             end
    end.

  (** [b''.join(self)]  datastructures.py:375 *)
  Fixpoint ls_join (fuel : nat) (out : str) (s : lstream) : res str * lstream :=
    match fuel with
    | 0 => (Err OutOfFuel, s)
    | S f => match ls_next s with
             | (Stop, s1) => (Ok out, s1)
             | (Raise e, s1) => (Err e, s1)
             | (Chunk c, s1) => ls_join f (out ++ c) s1
             end
    end.

  (** [LazyStream.read]  datastructures.py:370-395 *)
  Definition ls_read (fuel : nat) (size : option Z) (s : lstream) : res str * lstream :=
    match (match size with None => ls_remaining s | Some n => Some n end) with
    | None => ls_join fuel [] s
    | Some n => ls_read_loop fuel n [] s
    end.
End LazyStream.
Arguments lstream : clear implicits.
Arguments mkLS {P}.
Arguments ls_init {P}.
