(** * Independent specification of part delimitation (claims C21, C32) *)
From Verif Require Import Py Spec.

(** a byte string without the line break it may end with: CRLF, or LF, or CR *)
Definition trim_eol (u : str) : str :=
  match rev u with
  | 10%N :: 13%N :: r => rev r
  | 10%N :: r => rev r
  | 13%N :: r => rev r
  | _ => u
  end.

(** [block D r t after]: the part at the start of [r] is [t]; [after] is what
    follows the delimiter, [None] when there is no delimiter in [r] *)
Inductive block (D r : str) : str -> option str -> Prop :=
| block_found u v : first_occ D r u v -> block D r (trim_eol u) (Some v)
| block_none : ~ occurs D r -> block D r r None.
