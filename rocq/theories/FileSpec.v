(** * What the lines of a byte string are: lines end with LF, CRLF, or a CR not
    followed by LF; only the last line may be unterminated, and it is not empty. *)
From Verif Require Import Py.

Definition no_newline (s : str) : Prop := ~ In CR s /\ ~ In LF s.

Inductive is_lines : str -> list str -> Prop :=
| lines_nil : is_lines [] []
| lines_last b : b <> [] -> no_newline b -> is_lines b [b]
| lines_lf b s L : no_newline b -> is_lines s L -> is_lines (b ++ LF :: s) ((b ++ [LF]) :: L)
| lines_crlf b s L : no_newline b -> is_lines s L ->
    is_lines (b ++ CR :: LF :: s) ((b ++ [CR; LF]) :: L)
| lines_cr b s L : no_newline b -> hd 0%N s <> LF -> is_lines s L ->
    is_lines (b ++ CR :: s) ((b ++ [CR]) :: L).

(** [blocks n l]: every block but the last has [n] bytes, the last 1 to [n] *)
Inductive blocks (n : nat) : list str -> Prop :=
| blocks_nil : blocks n []
| blocks_last b : 0 < length b <= n -> blocks n [b]
| blocks_cons b l : length b = n -> l <> [] -> blocks n l -> blocks n (b :: l).
