(** * Specification vocabulary for the header parser (C06-C15).
    Nothing here refers to the model of the code. *)
From Verif Require Import Py Spec.

(** a header line "name: value" -- the name ends at the first colon, the value is
    the rest without surrounding white space *)
Definition header_field (line name value : str) : Prop :=
  exists raw, line = name ++ [58%N] ++ raw /\ ~ In 58%N name /\ value = strip raw.

Definition ascii_text (s : str) : Prop := forall c, In c s -> (c < 128)%N.

(** an acceptable header line *)
Definition good_line (line : str) (nv : str * str) : Prop :=
  header_field line (fst nv) (snd nv) /\ ascii_text (fst nv) /\ ascii_text (snd nv).

(** an offending line and the error it is answered with *)
Inductive bad_line (line : str) : exn -> Prop :=
| bad_no_colon : ~ In 58%N line -> bad_line line (InvalidHttpRequest BadHeaderLine)
| bad_not_ascii n v : header_field line n v -> ~ (ascii_text n /\ ascii_text v) ->
    bad_line line UnicodeDecodeError.

(** the lines of a block, each followed by CRLF *)
Definition lines_text (ls : list str) : str := concat (map (fun l => l ++ crlf) ls).
(** a line: not empty, no CRLF inside *)
Definition is_line (l : str) : Prop := l <> [] /\ ~ occurs crlf l.

(** values of the fields called exactly [n], in order of arrival *)
Fixpoint values_named (n : str) (ps : list (str * str)) : list str :=
  match ps with
  | [] => []
  | (m, v) :: r => if seqb n m then v :: values_named n r else values_named n r
  end.

(** ** The parts of a URL *)
(** the characters of a scheme: letters, digits, '+', '-', '.' *)
Definition scheme_letter (c : N) : Prop :=
  (65 <= c <= 90 \/ 97 <= c <= 122 \/ 48 <= c <= 57)%N \/ c = 43%N \/ c = 45%N \/ c = 46%N.
Definition scheme_text (s : str) : Prop := forall c, In c s -> scheme_letter c.
(** the characters that end an authority: '/', '?', '#' *)
Definition ends_authority (c : N) : Prop := c = 47%N \/ c = 63%N \/ c = 35%N.
(** the schemes whose URLs have parameters (none counts as one) *)
Definition param_schemes : list str :=
  [ []; !"ftp"; !"hdl"; !"http"; !"https"; !"imap"; !"mms"; !"prospero"; !"rtsp"; !"rtspu"; !"sftp"; !"shttp"; !"sip"; !"sips"; !"tel" ].

(** [url] has scheme [sc], followed by [rest] *)
Definition has_scheme (url sc rest : str) : Prop := (sc <> [] /\ scheme_text sc) /\ url = sc ++ [58%N] ++ rest.
(** [rest] starts with an authority [n], followed by [t] *)
Definition authority_then (rest n t : str) : Prop :=
  rest = !"//" ++ n ++ t /\ (forall c, In c n -> ~ ends_authority c) /\ (t = [] \/ exists c t', t = c :: t' /\ ends_authority c).
(** [s] cut at the first [c]; without one, everything stays on the left *)
Definition cut_at (c : N) (s a b : str) : Prop := ~ In c a /\ s = a ++ [c] ++ b \/ ~ In c s /\ a = s /\ b = [].
(** parameters: what follows the first ';' of the last segment of the path *)
Definition params_at (sc p a b : str) : Prop :=
  In sc param_schemes /\ (exists dir seg seg', p = dir ++ seg /\ (dir = [] \/ exists d, dir = d ++ [47%N]) /\ ~ In 47%N seg /\
                            cut_at 59%N seg seg' b /\ a = dir ++ seg')
  \/ ~ In sc param_schemes /\ a = p /\ b = [].
