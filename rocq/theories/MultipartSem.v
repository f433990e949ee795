(** * What the multipart parser computes from the bytes of the body, without streams

    [parses] relates a body and a loop state to the possible results of the loop of
    multipartparser.py:150-295.  It is proved equal to what the stream-based model does
    in MultipartFacts; the theorems about multipart bodies are derived from it. *)
From Verif Require Import Py PyDict Spec CodecModel QueryModel Base64Model HeaderModel
  BoundaryModel BoundarySpec BoundaryFacts UploadModel MultipartModel.

Definition head_size : nat := 1024.

(** the type and headers of a part, and its payload *)
Definition classify (reg : registry) (t : str) : res (ptype * pmeta * str) :=
  match find crlfcrlf (firstn head_size t) with
  | None => Ok (RAW, [], [])
  | Some i => let* h := header_meta reg (split crlf (firstn i t)) RAW [] in
              Ok (fst h, snd h, skipn (i + 4) t)
  end.

(** what is to be done with the payload *)
Inductive action :=
| ASkip
| AField (name : str) (tenc : option str)
| AFile (i : finfo) (b64 : bool).

Definition ctype_of (m : pmeta) : str * dict pystr :=
  match dget !"content-type" m with Some v => v | None => ([], []) end.
Definition tenc_of (m : pmeta) : option str :=
  option_map (fun v => ustrip (fst v)) (dget !"content-transfer-encoding" m).
Definition is_b64enc (tenc : option str) : bool :=
  match tenc with Some t => seqb t !"base64" | None => false end.
Definition filename_of (name2cp : str -> option N) (disp : dict pystr) : res str :=
  match dget !"filename" disp with
  | Some f => if pnonempty f
              then let* f := to_native f in
                   let* f := unescape_entities name2cp f in Ok (ie_sanitize f)
              else Ok []
  | None => Ok []
  end.
Definition part_action (name2cp : str -> option N) (ty : ptype) (m : pmeta) : res action :=
  match dget CDISP m with
  | None => Ok ASkip
  | Some (_, disp) =>
      match dget !"name" disp with
      | None => Ok ASkip
      | Some raw =>
          let* name := to_native (pstrip raw) in
          match ty with
          | RAW => Ok ASkip
          | FIELD => Ok (AField name (tenc_of m))
          | FILE =>
              let* f := filename_of name2cp disp in
              match f with
              | [] => Ok ASkip
              | _ => Ok (AFile (mkInfo name f (ustrip (fst (ctype_of m))) (dget !"charset" (snd (ctype_of m)))
                                       (snd (ctype_of m)) (tenc_of m))
                               (is_b64enc (tenc_of m)))
              end
          end
      end
  end.

(** a field with the given payload *)
Definition field_step (reg : registry) (st : mset) (name : str) (tenc : option str) (m : pmeta)
  (p : pst) (payload : str) : res pst :=
  let keys := (p_keys p + 1)%Z in
  if match ms_dnum st with Some n => Z.ltb n keys | None => false end then Err TooManyFieldsSent
  else
    let* raw := (match ms_dmem st with
                 | None => Ok payload
                 | Some n => let size := (n - p_bytes p)%Z in
                             if Z.ltb size 0 then Err AssertionError else Ok (firstn (Z.to_nat size) payload)
                 end : res str) in
    let* data := (if is_b64enc tenc then b64decode raw else Ok raw : res str) in
    let bytes := (p_bytes p + zlen raw + (zlen name + 2))%Z in
    if match ms_dmem st with Some n => Z.ltb n bytes | None => false end then Err RequestDataTooBig
    else
      let e := mkEntry data (ustrip (fst (ctype_of m))) (match tenc with Some t => t | None => [] end)
                       (snd (ctype_of m)) in
      let* post := post_append reg (ms_charset st) name e (p_post p) in
      Ok (mkP post (p_files p) (p_old p) (p_counters p) (p_hs p) bytes keys).

(** delivering a payload to the handlers in pieces *)
Definition hstate := (list handler * list nat)%type.
Inductive fed (mk_temp : str -> res unit) (max : option Z) : bool -> str -> hstate -> res hstate -> Prop :=
| fed_end b hc : fed mk_temp max b [] hc (Ok hc)
| fed_plain c rest hc hc' o : feed mk_temp max c (fst hc) (snd hc) = Ok hc' ->
    fed mk_temp max false rest hc' o -> fed mk_temp max false (c ++ rest) hc o
| fed_plain_err c rest hc e : feed mk_temp max c (fst hc) (snd hc) = Err e ->
    fed mk_temp max false (c ++ rest) hc (Err e)
| fed_b64 c rest d hc hc' o : length (remove_ws c) mod 4 = 0 -> b64decode (remove_ws c) = Ok d ->
    feed mk_temp max d (fst hc) (snd hc) = Ok hc' ->
    fed mk_temp max true rest hc' o -> fed mk_temp max true (c ++ rest) hc o
| fed_b64_err c rest d hc e : length (remove_ws c) mod 4 = 0 -> b64decode (remove_ws c) = Ok d ->
    feed mk_temp max d (fst hc) (snd hc) = Err e -> fed mk_temp max true (c ++ rest) hc (Err e)
| fed_b64_bad c rest hc e : length (remove_ws c) mod 4 = 0 -> b64decode (remove_ws c) = Err e ->
    fed mk_temp max true (c ++ rest) hc (Err TypeError)
| fed_b64_hang rest hc : length (remove_ws rest) mod 4 <> 0 ->
    fed mk_temp max true rest hc (Err OutOfFuel).

(** the outcome of one part: an exception, fully read, or left unread *)
Inductive outcome := OErr (e : exn) | ODone (p : pst) | OSkip (p : pst).

Section Sem.
  Context (reg : registry) (name2cp : str -> option N) (mk_temp : str -> res unit) (st : mset).

  Definition step (p : pst) (t : str) (o : outcome) : Prop :=
    match classify reg t with
    | Err e => o = OErr e
    | Ok (ty, m, payload) =>
        match finish_file p with
        | Err e => o = OErr e
        | Ok p1 =>
            match part_action name2cp ty m with
            | Err e => o = OErr e
            | Ok ASkip => o = OSkip p1
            | Ok (AField name tenc) =>
                o = match field_step reg st name tenc m p1 payload with Ok p2 => ODone p2 | Err e => OErr e end
            | Ok (AFile i b64) =>
                match new_files mk_temp i (p_hs p1) with
                | Err e => o = OErr e
                | Ok hs =>
                    exists r, fed mk_temp (ms_fmem st) b64 payload (hs, map (fun _ => 0) hs) r /\
                    o = match r with
                        | Err e => OErr e
                        | Ok hc => ODone (mkP (p_post p1) (p_files p1) (fi_field i) (snd hc) (fst hc)
                                              (p_bytes p1) (p_keys p1))
                        end
                end
            end
        end
    end.

  Inductive parses (D : str) : str -> pst -> res pst -> Prop :=
  | pr_end p : parses D [] p (Ok p)
  | pr_err r t af p e : r <> [] -> block D r t af -> step p t (OErr e) -> parses D r p (Err e)
  | pr_done r t af p p' o : r <> [] -> block D r t af -> step p t (ODone p') ->
      parses D (odef af) p' o -> parses D r p o
  | pr_skip r t af p p' o : r <> [] -> block D r t af -> step p t (OSkip p') ->
      parses D (odef af) p' o -> parses D r p o
  | pr_leak r t af p p' m o : r <> [] -> block D r t af -> step p t (OSkip p') ->
      head_size <= m <= length t -> parses D (skipn m r) p' o -> parses D r p o.
End Sem.
