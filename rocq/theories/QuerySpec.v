(** * What a query string means, independently of the parser *)
From Verif Require Import Py CodecModel.

(** the pieces between separators *)
Definition separator (c : char) : Prop := c = 38%N \/ c = 59%N.             (* '&' ';' *)
Definition no_separator (s : str) : Prop := forall c, In c s -> ~ separator c.
Inductive pieces : str -> list str -> Prop :=
| pieces_one s : no_separator s -> pieces s [s]
| pieces_cons u c t l : no_separator u -> separator c -> pieces t l -> pieces (u ++ c :: t) (u :: l).

(** the number of separators *)
Fixpoint separators (s : str) : nat :=
  match s with
  | [] => 0
  | c :: t => (if N.eqb c 38 || N.eqb c 59 then 1 else 0) + separators t
  end.

(** percent-decoding: %XY is a byte when X and Y are hexadecimal digits *)
Definition hex_value (c : char) (v : nat) : Prop :=
  nth_error !"0123456789ABCDEF" v = Some c \/ nth_error !"0123456789abcdef" v = Some c.
Inductive pct_decodes : str -> str -> Prop :=
| pct_nil : pct_decodes [] []
| pct_hex a b x y s t : hex_value a x -> hex_value b y -> pct_decodes s t ->
    pct_decodes (37%N :: a :: b :: s) (N.of_nat (x * 16 + y) :: t)
| pct_plain c s t : (c = 37%N -> ~ exists a b r x y, s = a :: b :: r /\ hex_value a x /\ hex_value b y) ->
    pct_decodes s t -> pct_decodes (c :: s) (c :: t).

(** decoding of text: every maximal run of ASCII characters is percent-decoded
    and the bytes are decoded with the codec; other characters stay *)
Inductive text_decodes (c : codec) : str -> str -> Prop :=
| td_nil : text_decodes c [] []
| td_run a b bs t : a <> [] -> (forall x, In x a -> (x < 128)%N) ->
    match b with [] => True | x :: _ => (128 <= x)%N end ->
    pct_decodes a bs -> text_decodes c b t -> text_decodes c (a ++ b) (c_rep c bs ++ t)
| td_char x b t : (128 <= x)%N -> text_decodes c b t -> text_decodes c (x :: b) (x :: t).

(** '+' stands for a space *)
Definition field_text (c : codec) (s t : str) : Prop :=
  text_decodes c (map (fun x => if N.eqb x 43 then 32%N else x) s) t.

(** the pair, if any, that one piece contributes *)
Inductive field_pair (c : codec) (blank : bool) : str -> list (str * str) -> Prop :=
| fp_empty : field_pair c blank [] []
| fp_value n v n' v' : ~ In 61%N n -> (v <> [] \/ blank = true) -> field_text c n n' -> field_text c v v' ->
    field_pair c blank (n ++ 61%N :: v) [(n', v')]
| fp_novalue n : ~ In 61%N n -> blank = false -> field_pair c blank (n ++ [61%N]) []
| fp_name n n' : n <> [] -> ~ In 61%N n -> blank = true -> field_text c n n' -> field_pair c blank n [(n', [])]
| fp_noname n : n <> [] -> ~ In 61%N n -> blank = false -> field_pair c blank n [].
