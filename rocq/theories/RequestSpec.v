(** * Specification vocabulary for HttpRequest: requests as they travel.
    Nothing here refers to the model of the code. *)
From Verif Require Import Py Spec HeadSpec StreamModel.

(** a complete request: request line, header lines with their fields, body *)
Record wire := mkWire { w_line : str; w_lines : list str; w_fields : list (str * str); w_body : str }.
Definition wire_ok (w : wire) : Prop :=
  is_line (w_line w) /\ Forall is_line (w_lines w) /\ Forall2 good_line (w_lines w) (w_fields w) /\ w_lines w <> [].
Definition wire_bytes (w : wire) : str := lines_text (w_line w :: w_lines w) ++ crlf ++ w_body w.

(** the last value of the fields called exactly [n] *)
Definition last_value (n : str) (w : wire) (v : str) : Prop :=
  exists pre, values_named n (w_fields w) = pre ++ [v].
