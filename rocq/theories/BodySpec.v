(** * Bodies with pieces that are not parts of the form, and truncated bodies (claims C23, C24, C25, C30) *)
From Verif Require Import Py PyDict Spec FormSpec.

(** neither a part of a form nor a header with a charset: no Content-Disposition, no star *)
Definition ignorable (j : str) : Prop := ~ occurs !"content-disposition" (lower j) /\ ~ In 42%N j.

(** what stands between two delimiters: a part of the form, or something else *)
Inductive piece := APart (p : part) | AJunk (j : str).
Definition piece_bytes (e : piece) : str := match e with APart p => render_part p | AJunk j => j end.
Definition parts_of (es : list piece) : list part :=
  flat_map (fun e => match e with APart p => [p] | AJunk _ => [] end) es.

Definition junk_ok (D j : str) : Prop := ~ occurs D j /\ ignorable j.
Definition piece_ok (D : str) (e : piece) : Prop := match e with APart p => part_ok D p | AJunk j => junk_ok D j end.

(** the body up to and including the delimiter after the pieces [es]; [pre]: what precedes the first delimiter *)
Definition body_open (D : str) (pre : option str) : str := match pre with None => D | Some j => j ++ crlf ++ D end.
Definition upto (D : str) (pre : option str) (es : list piece) : str :=
  body_open D pre ++ concat (map (fun e => piece_bytes e ++ crlf ++ D) es).
Definition render_body (D : str) (pre : option str) (es : list piece) (epi : str) : str :=
  upto D pre es ++ !"--" ++ epi.
Definition pre_ok (D : str) (pre : option str) : Prop := match pre with None => True | Some j => junk_ok D j end.

(** the bytes of the files among the parts *)
Definition file_bytes (ps : list part) : nat :=
  list_sum (map (fun p => length (pt_data p)) (filter (fun p => negb (is_field p)) ps)).
