(** * Model of request_parser/files/base.py (File) and of the [chunks] method of
    files/uploadedfile.py:78-96 (InMemoryUploadedFile).

    A file object is its content and a position.  Not modelled: closing and
    reopening (files/base.py:101-117), [size] of a plain File (31-45) and the
    forwarding properties of files/utils.py:4-55, which only rename methods. *)
From Verif Require Import Py.

Record fileobj := mkFile { fo_data : str; fo_pos : nat }.

(** [read(n)] of the wrapped file object (BytesIO or a real file): a negative
    [n] reads to the end *)
Definition fo_read (n : Z) (f : fileobj) : str * fileobj :=
  let rest := skipn (fo_pos f) (fo_data f) in
  let d := if Z.ltb n 0 then rest else firstn (Z.to_nat n) rest in
  (d, mkFile (fo_data f) (fo_pos f + length d)).

Definition fo_seek0 (f : fileobj) : fileobj := mkFile (fo_data f) 0.

(** files/base.py:8 *)
Definition DEFAULT_CHUNK_SIZE : Z := (64 * 2 ^ 10)%Z.

(** [chunk_size or self.DEFAULT_CHUNK_SIZE]: base.py:52 *)
Definition chunk_size_of (n : option Z) : Z :=
  match n with
  | Some z => if Z.eqb z 0 then DEFAULT_CHUNK_SIZE else z
  | None => DEFAULT_CHUNK_SIZE
  end.

(** base.py:58-62; every turn but the last consumes a byte, so [S (length data)]
    turns are enough *)
Fixpoint chunks_loop (fuel : nat) (n : Z) (f : fileobj) : list str * fileobj :=
  match fuel with
  | 0 => ([], f)
  | S fuel' =>
      let (d, f1) := fo_read n f in
      match d with
      | [] => ([], f1)
      | _ => let (r, f2) := chunks_loop fuel' n f1 in (d :: r, f2)
      end
  end.

(** base.py:47-62 *)
Definition file_chunks (n : option Z) (f : fileobj) : list str * fileobj :=
  chunks_loop (S (length (fo_data f))) (chunk_size_of n) (fo_seek0 f).

(** files/uploadedfile.py:90-92 (InMemoryUploadedFile): the whole content at once *)
Definition mem_chunks (n : option Z) (f : fileobj) : list str * fileobj :=
  let (d, f1) := fo_read (-1)%Z (fo_seek0 f) in ([d], f1).

(** Python 2 [s.splitlines(True)] for byte strings: CR, LF and CRLF end a line *)
Fixpoint splitlines_loop (s : str) : list str :=
  match s with
  | [] => []
  | c :: t =>
      if N.eqb c LF then [c] :: splitlines_loop t
      else if N.eqb c CR then
        match t with
        | d :: t' => if N.eqb d LF then [c; d] :: splitlines_loop t'
                     else [c] :: splitlines_loop t
        | [] => [[c]]
        end
      else match splitlines_loop t with
           | l :: r => (c :: l) :: r
           | [] => [[c]]
           end
  end.
Definition splitlines (s : str) : list str := splitlines_loop s.

(** base.py:147-159 *)
Definition endswith_cr (l : str) : bool := endswith l [CR].
Definition endswith_lf (l : str) : bool := endswith l [LF].
Definition equals_lf (l : str) : bool := seqb l [LF].

(** one turn of the loop body, base.py:79-96: the lines it yields and the new [buffer_].
    [None] and [""] are both false at line 79. *)
Definition iter_line (buf : option str) (line : str) : list str * option str :=
  match buf with
  | Some ((_ :: _) as b) =>
      if endswith_cr b && negb (equals_lf line) then                       (* 80-82 *)
        if endswith_lf line then ([b; line], None) else ([b], Some line)   (* 93-96 *)
      else
        let line := b ++ line in                                           (* 88 *)
        if endswith_lf line then ([line], None) else ([], Some line)
  | _ => if endswith_lf line then ([line], buf) else ([], Some line)
  end.

Fixpoint iter_lines (buf : option str) (lines : list str) : list str :=
  match lines with
  | [] => match buf with Some b => [b] | None => [] end                    (* 98-99 *)
  | l :: r => let (out, buf') := iter_line buf l in out ++ iter_lines buf' r
  end.

(** base.py:74-99, over the chunks delivered by [chunks()] *)
Definition file_iter_chunks (cs : list str) : list str :=
  iter_lines None (flat_map splitlines cs).

Definition file_iter (f : fileobj) : list str := file_iter_chunks (fst (file_chunks None f)).
Definition mem_iter (f : fileobj) : list str := file_iter_chunks (fst (mem_chunks None f)).
