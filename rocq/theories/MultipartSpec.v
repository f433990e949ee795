(** * What a multipart body means, part by part (claims C22-C31, C36)

    The body is cut at the delimiters ([splits]); each piece is a field, a file, a
    piece to be ignored or an error ([item_of]); the pieces are then processed in
    order ([u_run]).  Nothing here mentions streams, chunks or handlers. *)
From Verif Require Import Py PyDict Spec CodecModel QueryModel Base64Model HeaderModel
  BoundarySpec BoundaryFacts UploadModel MultipartModel MultipartSem.

(** the pieces of a body between the delimiters *)
Inductive splits (D : str) : str -> list str -> Prop :=
| sp_nil : splits D [] []
| sp_cons r t af ts : r <> [] -> block D r t af -> splits D (odef af) ts -> splits D r (t :: ts).

Inductive item :=
| KErr (e : exn)
| KSkip
| KField (name : str) (tenc : option str) (m : pmeta) (payload : str)
| KFile (i : finfo) (content : str).

(** the content of a file: its payload, or what the payload without white space encodes *)
Definition content_of (b64 : bool) (payload w : str) : Prop :=
  if b64 then bytes_only w = true /\ remove_ws payload = b64encode w else w = payload.

Definition item_of (reg : registry) (name2cp : str -> option N) (t : str) (it : item) : Prop :=
  match classify reg t with
  | Err e => it = KErr e
  | Ok (ty, m, payload) =>
      match part_action name2cp ty m with
      | Err e => it = KErr e
      | Ok ASkip => it = KSkip
      | Ok (AField name tenc) => it = KField name tenc m payload
      | Ok (AFile i b64) => exists w, content_of b64 payload w /\ it = KFile i w
      end
  end.

(** the state: what has been stored, the file received last (stored when the next part
    begins), the number of file bytes and of field bytes so far, the number of fields *)
Record ust := mkU {
  u_post : dict (list entry); u_files : dict (list ufile); u_pend : option (str * ufile);
  u_total : nat; u_bytes : Z; u_keys : Z }.
Definition u_start : ust := mkU [] [] None 0 0 0.

(** the file received last is stored unless it is empty or its field has no name *)
Definition u_finish (u : ust) : ust :=
  match u_pend u with
  | Some (n, f) =>
      mkU (u_post u)
          (if nonempty n && negb (Nat.eqb (uf_size f) 0) then files_append n f (u_files u) else u_files u)
          None (u_total u) (u_bytes u) (u_keys u)
  | None => u
  end.

(** the uploaded file with content [w]; [total]: all file bytes so far, these included *)
Definition upload (m : Z) (total : nat) (i : finfo) (w : str) : ufile :=
  mkUF (if Z.ltb m (Z.of_nat total) then Temporary (temp_suffix (fi_name i)) else InMemory (fi_field i))
       (set_name (fi_name i)) w (length w) (fi_ctype i) (fi_charset i) (fi_extra i) (fi_tenc i).

Section Run.
  Context (reg : registry) (mk_temp : str -> res unit) (st : mset) (m : Z).

  Definition u_field (name : str) (tenc : option str) (h : pmeta) (payload : str) (u : ust) : res ust :=
    let keys := (u_keys u + 1)%Z in
    if match ms_dnum st with Some n => Z.ltb n keys | None => false end then Err TooManyFieldsSent
    else
      let* raw := (match ms_dmem st with
                   | None => Ok payload
                   | Some n => let size := (n - u_bytes u)%Z in
                               if Z.ltb size 0 then Err AssertionError else Ok (firstn (Z.to_nat size) payload)
                   end : res str) in
      let* data := (if is_b64enc tenc then b64decode raw else Ok raw : res str) in
      let bytes := (u_bytes u + zlen raw + (zlen name + 2))%Z in
      if match ms_dmem st with Some n => Z.ltb n bytes | None => false end then Err RequestDataTooBig
      else
        let e := mkEntry data (ustrip (fst (ctype_of h))) (match tenc with Some t => t | None => [] end)
                         (snd (ctype_of h)) in
        let* post := post_append reg (ms_charset st) name e (u_post u) in
        Ok (mkU post (u_files u) (u_pend u) (u_total u) bytes keys).

  Definition u_file (i : finfo) (w : str) (u : ust) : res ust :=
    let total := u_total u + length w in
    let* _ := if Z.ltb m (Z.of_nat total) then mk_temp (temp_suffix (fi_name i)) else Ok tt in
    Ok (mkU (u_post u) (u_files u) (Some (fi_field i, upload m total i w)) total (u_bytes u) (u_keys u)).

  Definition u_step (it : item) (u : ust) : res ust :=
    let u := u_finish u in
    match it with
    | KErr e => Err e
    | KSkip => Ok u
    | KField name tenc h payload => u_field name tenc h payload u
    | KFile i w => u_file i w u
    end.

  Fixpoint u_run (its : list item) (u : ust) : res ust :=
    match its with
    | [] => Ok u
    | it :: r => let* u' := u_step it u in u_run r u'
    end.
End Run.
