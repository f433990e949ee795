(** * How a form is written as multipart/form-data (claims C22, C26, C27, C31)

    This is the sender's side, written independently of the parser. *)
From Verif Require Import Py PyDict Spec CodecModel Base64Model HeaderSpec UploadModel MultipartModel.

(** a part: field name, file name (for files), content type with parameters,
    whether the payload is base64, the payload and the data it stands for *)
Record part := mkPart {
  pt_name : str; pt_file : option str; pt_type : option (str * list (str * pval));
  pt_b64 : bool; pt_raw : str; pt_data : str }.

Definition disp_line (p : part) : str :=
  render !"Content-Disposition: form-data"
    ((!"name", Quo (pt_name p)) :: match pt_file p with Some f => [(!"filename", Quo f)] | None => [] end).
Definition type_lines (p : part) : list str :=
  match pt_type p with Some (t, ps) => [render (!"Content-Type: " ++ t) ps] | None => [] end.
Definition enc_lines (p : part) : list str :=
  if pt_b64 p then [!"Content-Transfer-Encoding: base64"] else [].
Definition part_head (p : part) : str := join crlf (disp_line p :: type_lines p ++ enc_lines p).
Definition render_part (p : part) : str := crlf ++ part_head p ++ crlfcrlf ++ pt_raw p.
(** the whole body under the delimiter [D] = two hyphens and the boundary *)
Definition render_form (D : str) (ps : list part) : str :=
  D ++ concat (map (fun p => render_part p ++ crlf ++ D) ps) ++ !"--" ++ crlf.

Definition no_newline (s : str) : Prop := ~ In 13%N s /\ ~ In 10%N s.

Definition type_ok (t : str * list (str * pval)) : Prop :=
  fst t <> [] /\ forallb (fun c => is_token_char c || N.eqb c 47) (fst t) = true /\
  Forall (fun p => is_token (fst p) = true /\ endswith (fst p) !"*" = false /\
                   match snd p with Tok v => is_token v = true | Quo v => balanced false v = true end) (snd t) /\
  no_newline (render (fst t) (snd t)).
(** a name that can be written between quotes *)
Definition quotable (n : str) : Prop := no_newline n /\ balanced false n = true /\ strip n = n.
Definition file_name_ok (f : str) : Prop :=
  quotable f /\ f <> [] /\ length f <= 255 /\ ~ In 38%N f /\ ~ In 92%N f /\ ~ In 47%N f.

(** headers that can be written and read back; the content is arbitrary *)
Definition head_ok (p : part) : Prop :=
  quotable (pt_name p) /\
  match pt_file p with Some f => quotable f /\ f <> [] | None => True end /\
  match pt_type p with Some t => type_ok t | None => True end /\
  length (part_head p) + 6 <= 1024.

Definition part_ok (D : str) (p : part) : Prop :=
  quotable (pt_name p) /\
  match pt_file p with
  | Some f => file_name_ok f /\ pt_name p <> [] /\ pt_data p <> [] /\
      if pt_b64 p then bytes_only (pt_data p) = true /\ remove_ws (pt_raw p) = b64encode (pt_data p)
      else pt_raw p = pt_data p
  | None => ascii_only (pt_name p) = true /\ pt_b64 p = false /\ pt_raw p = pt_data p
  end /\
  match pt_type p with Some t => type_ok t | None => True end /\
  length (part_head p) + 6 <= 1024 /\
  ~ occurs D (render_part p).

(** the parts of one name *)
Definition fields_named (k : str) (ps : list part) : list part :=
  filter (fun p => match pt_file p with None => seqb k (pt_name p) | Some _ => false end) ps.
Definition files_named (k : str) (ps : list part) : list part :=
  filter (fun p => match pt_file p with None => false | Some _ => seqb k (pt_name p) end) ps.
Definition is_field (p : part) : bool := match pt_file p with None => true | Some _ => false end.
(** what a form counts against the two limits *)
Definition field_count (ps : list part) : nat := length (filter is_field ps).
Definition field_bytes (ps : list part) : nat :=
  list_sum (map (fun p => length (pt_raw p) + length (pt_name p) + 2) (filter is_field ps)).

Definition type_name (p : part) : str := match pt_type p with Some (t, _) => lower t | None => [] end.
Definition type_param (n : str) (p : part) : option pystr :=
  match pt_type p with Some (_, ps) => option_map PB (last_value n ps) | None => None end.

(** the entry of POST for a field, the entry of FILES for a file *)
Definition entry_for (e : entry) (p : part) : Prop :=
  en_data e = pt_data p /\ en_ctype e = type_name p /\ (forall n, dget n (en_extra e) = type_param n p) /\ en_tenc e = [].
Definition file_for (f : ufile) (p : part) : Prop :=
  uf_content f = pt_data p /\ uf_size f = length (pt_data p) /\ Some (uf_name f) = pt_file p /\
  uf_ctype f = type_name p /\ (forall n, dget n (uf_extra f) = type_param n p) /\
  uf_charset f = type_param !"charset" p /\ uf_tenc f = (if pt_b64 p then Some !"base64" else None).

Definition getl {A} (k : str) (d : dict (list A)) : list A := match dget k d with Some l => l | None => [] end.
