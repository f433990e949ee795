(** * The multipart parser when the boundary is a unicode object:
    request_parser/http/multipartparser.py:65-84, 451-473

    A boundary written as an RFC 2231 parameter (boundary*=utf-8''...) is decoded by
    parse_header and is a unicode object; [isinstance(boundary, str)] (line 80) is false and it
    stays one.  Then [data.find(self._boundary)] (line 460) decodes the data as ASCII, and raises
    UnicodeDecodeError if it is not.  MultipartModel leaves this out; here [uni] says whether the
    boundary is a unicode object, and everything else is as in BoundaryModel and MultipartModel. *)
From Verif Require Import Py PyDict StreamModel CodecModel QueryModel Base64Model HeaderModel
  BoundaryModel UploadModel MultipartModel HeadModel RequestModel.

Definition is_unicode (b : pystr) : bool := match b with PU _ => true | PB _ => false end.

Section Next.
  Context {P : Type} (pnext : P -> nxt * P) (uni : bool).
  (** [BoundaryIter.next]  399-449 *)
  Definition u_next (fuel : nat) (b : biter P) : nxt * biter P :=
    let D := bi_boundary b in
    if bi_done b then (Stop, b)
    else
      match bi_collect pnext fuel (rollback D) 0 [] (bi_stream b) with
      | (Err e, s1) => (Raise e, mkBI s1 D false)
      | (Ok (chunks, ended), s1) =>
          match chunks with
          | [] => (Stop, mkBI s1 D ended)
          | _ =>
              let chunk := concat chunks in
              if uni && negb (ascii_only chunk) then (Raise UnicodeDecodeError, mkBI s1 D ended)   (* 460 *)
              else
              match find_boundary D chunk with
              | Some (e, next) =>
                  match ls_unget (skipn next chunk) s1 with
                  | (Err x, s2) => (Raise x, mkBI s2 D ended)
                  | (Ok _, s2) => (Chunk (slice_to e chunk), mkBI s2 D true)
                  end
              | None =>
                  match upto_neg (rollback D) chunk with
                  | [] => (Chunk chunk, mkBI s1 D true)
                  | c => match ls_unget (from_neg (rollback D) chunk) s1 with
                         | (Err x, s2) => (Raise x, mkBI s2 D ended)
                         | (Ok _, s2) => (Chunk c, mkBI s2 D ended)
                         end
                  end
              end
          end
      end.
End Next.

Section Parser.
  Context {R : Type} (rd : nat -> R -> res str * R) (exh : R -> res unit * R).
  Context (reg : registry) (name2cp : str -> option N) (mk_temp : str -> res unit).
  Context (st : mset) (uni : bool) (D : str) (fuel : nat).

  Notation P1 := (chunkiter R).
  Notation L1 := (lstream P1).
  Notation L2 := (lstream (biter P1)).
  Notation pn1 := (ci_next rd).
  Notation pn2 := (u_next pn1 uni fuel).

  (** lines 485-543 *)
  Definition u_parse_boundary_stream (s : L2) : res (ptype * pmeta) * L2 :=
    match ls_read pn2 fuel (Some MAX_PART_HEADER) s with                              (* 492 *)
    | (Err e, s1) => (Err e, s1)
    | (Ok chunk, s1) =>
        match find crlfcrlf chunk with                                                (* 497 *)
        | None => match ls_unget chunk s1 with                                        (* 507-511 *)
                  | (Err e, s2) => (Err e, s2)
                  | (Ok _, s2) => (Ok (RAW, []), s2)
                  end
        | Some i =>
            match ls_unget (skipn (i + 4) chunk) s1 with                              (* 517 *)
            | (Err e, s2) => (Err e, s2)
            | (Ok _, s2) =>
                match header_meta reg (split crlf (firstn i chunk)) RAW [] with       (* 513-536 *)
                | Err e => (Err e, s2)
                | Ok (RAW, m) => match ls_unget chunk s2 with                         (* 540-541 *)
                                 | (Err e, s3) => (Err e, s3)
                                 | (Ok _, s3) => (Ok (RAW, m), s3)
                                 end
                | Ok (ty, m) => (Ok (ty, m), s2)
                end
            end
        end
    end.

  (** ** One field: lines 170-220 *)
  Definition u_read_field (name : str) (tenc : option str) (m : pmeta) (p : pst) (s : L2) : res pst * L2 :=
    let keys := (p_keys p + 1)%Z in                                                   (* 172 *)
    if match ms_dnum st with Some n => Z.ltb n keys | None => false end
    then (Err TooManyFieldsSent, s)                                                   (* 173-178 *)
    else
      let size := option_map (fun n => (n - p_bytes p)%Z) (ms_dmem st) in             (* 147, 181-182 *)
      match ls_read pn2 fuel size s with                                              (* 187, 195 *)
      | (Err e, s1) => (Err e, s1)
      | (Ok raw, s1) =>
          match (match tenc with
                 | Some t => if seqb t !"base64" then b64decode raw else Ok raw       (* 185-193 *)
                 | None => Ok raw
                 end) with
          | Err e => (Err e, s1)
          | Ok data =>
              let bytes := (p_bytes p + zlen raw + (zlen name + 2))%Z in              (* 188, 196, 202 *)
              if match ms_dmem st with Some n => Z.ltb n bytes | None => false end
              then (Err RequestDataTooBig, s1)                                        (* 203-205 *)
              else
                let (ct, extra) := match dget !"content-type" m with
                                   | Some v => v
                                   | None => ([], [])
                                   end in                                             (* 210 *)
                let e := mkEntry data (ustrip ct) (match tenc with Some t => t | None => [] end) extra in
                match post_append reg (ms_charset st) name e (p_post p) with          (* 214-220 *)
                | Err x => (Err x, s1)
                | Ok post => (Ok (mkP post (p_files p) (p_old p) (p_counters p) (p_hs p) bytes keys), s1)
                end
          end
      end.

  (** ** One file: lines 221-292 *)
  (** lines 262-265: complete a group of base64 characters to a multiple of four *)
  Fixpoint u_b64_fill (n : nat) (acc : str) (s : L2) : res str * L2 :=
    match n with
    | 0 => (Err OutOfFuel, s)
    | S n' =>
        let rem := Nat.modulo (length acc) 4 in
        if Nat.eqb rem 0 then (Ok acc, s)
        else match ls_read pn2 fuel (Some (Z.of_nat (4 - rem))) s with
             | (Err e, s1) => (Err e, s1)
             | (Ok over, s1) => u_b64_fill n' (acc ++ remove_ws over) s1
             end
    end.

  (** lines 253-283; [raise_from] (line 271) is six.reraise called with an instance:
      a TypeError *)
  Fixpoint u_file_loop (n : nat) (b64 : bool) (hs : list handler) (cs : list nat) (s : L2)
    : res (list handler * list nat) * L2 :=
    match n with
    | 0 => (Err OutOfFuel, s)
    | S n' =>
        match ls_next pn2 s with
        | (Stop, s1) => (Ok (hs, cs), s1)
        | (Raise e, s1) => (Err e, s1)
        | (Chunk c, s1) =>
            match (if b64 then
                     match u_b64_fill fuel (remove_ws c) s1 with                        (* 259-265 *)
                     | (Err e, s2) => (Err e, s2)
                     | (Ok g, s2) => (match b64decode g with Ok d => Ok d | Err _ => Err TypeError end, s2)
                     end
                   else (Ok c, s1)) with
            | (Err e, s2) => (Err e, s2)
            | (Ok d, s2) =>
                match feed mk_temp (ms_fmem st) d hs cs with
                | Err e => (Err e, s2)
                | Ok (hs, cs) => u_file_loop n' b64 hs cs s2
                end
            end
        end
    end.

  Definition u_read_file (name : str) (tenc : option str) (disp : dict pystr) (m : pmeta) (p : pst) (s : L2)
    : res pst * L2 :=
    match (match dget !"filename" disp with                                           (* 223-226 *)
           | Some f => if pnonempty f
                       then let* f := to_native f in
                            let* f := unescape_entities name2cp f in Ok (ie_sanitize f)
                       else Ok []
           | None => Ok []
           end) with
    | Err e => (Err e, s)
    | Ok [] => (Ok p, s)                                                              (* 227-228 *)
    | Ok file_name =>
        let (ct, extra) := match dget !"content-type" m with
                           | Some v => v
                           | None => ([], [])
                           end in
        let i := mkInfo name file_name (ustrip ct) (dget !"charset" extra) extra tenc in   (* 230-232 *)
        match new_files mk_temp i (p_hs p) with                                       (* 239-251 *)
        | Err e => (Err e, s)
        | Ok hs =>
            match u_file_loop fuel (match tenc with Some t => seqb t !"base64" | None => false end)
                    hs (map (fun _ => 0) hs) s with
            | (Err e, s1) => (Err e, s1)
            | (Ok (hs, cs), s1) =>
                (Ok (mkP (p_post p) (p_files p) name cs hs (p_bytes p) (p_keys p)), s1)     (* 292 *)
            end
        end
    end.

  (** ** One turn of the loop of lines 150-295 *)
  Definition u_one_part (ty : ptype) (m : pmeta) (p : pst) (s : L2) : res pst * L2 :=
    match dget CDISP m with
    | None => (Ok p, s)                                                               (* 161: KeyError *)
    | Some (_, disp) =>
        match dget !"name" disp with
        | None => (Ok p, s)                                                           (* 161: KeyError *)
        | Some raw =>
            let tenc := option_map (fun v => ustrip (fst v)) (dget !"content-transfer-encoding" m) in
            match to_native (pstrip raw) with                                         (* 160, 168 *)
            | Err e => (Err e, s)
            | Ok name =>
                match ty with
                | FIELD => u_read_field name tenc m p s
                | FILE => u_read_file name tenc disp m p s
                | RAW => (Ok p, s)                (* not reachable: RAW parts have no content-disposition *)
                end
            end
        end
    end.

  (** the loop of lines 150-295 over Parser and InterBoundaryIter (342-364, 545-564) *)
  Fixpoint u_parts_loop (n : nat) (p : pst) (s : L1) : res pst * L1 :=
    match n with
    | 0 => (Err OutOfFuel, s)
    | S n' =>
        match bi_init pn1 fuel s D with                                               (* 362 *)
        | (Err InputStreamExhausted, s1) => (Ok p, s1)                                (* 363-364 *)
        | (Err e, s1) => (Err e, s1)
        | (Ok b, s1) =>
            match u_parse_boundary_stream (ls_init b None) with                         (* 564 *)
            | (Err e, s2) => (Err e, outer_of s1 s2)
            | (Ok (ty, m), s2) =>
                match finish_file p with
                | Err e => (Err e, outer_of s1 s2)
                | Ok p1 =>
                    match u_one_part ty m p1 s2 with
                    | (Err e, s3) => (Err e, outer_of s1 s3)
                    | (Ok p2, s3) => u_parts_loop n' p2 (outer_of s1 s3)
                    end
                end
            end
        end
    end.

  (** ** [parse], lines 95-316.  [csize]: the smallest chunk size of the handlers (87-88) *)
  Definition u_parse (csize : nat) (content_length : Z) (hs : list handler) (r : R)
    : res (dict (list entry) * dict (list ufile)) * R :=
    match querydict reg (Some (ms_query st)) None true with                           (* 110, 132 *)
    | Err e => (Err e, r)
    | Ok _ =>
        if Z.eqb content_length 0 then (Ok ([], []), r)                               (* 109-110 *)
        else
          let hs := map (h_raw_input (ms_fmem st) content_length) hs in               (* 114-129 *)
          let p := mkP [] [] [] (map (fun _ => 0) hs) hs 0 0 in                       (* 132-147 *)
          match u_parts_loop fuel p (ls_init (mkCI r csize) None) with
          | (Err e, s) => (Err e, input_of r s)
          | (Ok p, s) =>
              match exh (input_of r s) with                                           (* 308 *)
              | (Err e, r) => (Err e, r)
              | (Ok _, r) => (Ok (p_post p, p_files p), r)
              end
          end
    end.
End Parser.

(** [MultiPartParser(META, ...)] and [parse()]: lines 42-316 *)
Definition u_multipart {R} (rd : nat -> R -> res str * R) (exh : R -> res unit * R) (reg : registry) (name2cp : str -> option N)
  (mk_temp : str -> res unit) (st : mset) (fuel csize : nat) (hs : list handler) (ctype clen : option str) (r : R)
  : res (dict (list entry) * dict (list ufile)) * R :=
  match mp_init reg ctype clen with
  | Err e => (Err e, r)
  | Ok (b, len) => u_parse rd exh reg name2cp mk_temp st (is_unicode b) (!"--" ++ pchars b) fuel csize len hs r
  end.

(** ** [HttpRequest.parse]  request.py:343-355, 495-554, with this parser; as in RequestModel otherwise *)
Section Request.
  Context (reg : registry) (name2cp : str -> option N) (mk_temp : str -> res unit).
  Definition u_file_upload : M (postv * dict (list ufile)) :=
    let! r := mreq in
    let! st := msett in
    match r_meta r with
    | None => mraise AttributeError
    | Some m =>
        match m_headers m with
        | None => mraise AttributeError
        | Some h =>
            let! bl := mlift (mp_init reg (header !"Content-Type" h) (header !"Content-Length" h)) in
            let! pf := mstream (fun s => u_parse l0_rd l0_exh reg name2cp mk_temp (s_multi st) (is_unicode (fst bl))
                                           (!"--" ++ pchars (fst bl)) (2 * l0_total s + 4)
                                           (mp_chunk (s_handlers st)) (snd bl) (map new_handler (s_handlers st)) s) in
            mret (PForm (fst pf), snd pf)
        end
    end.
  Definition u_post : M (postv * dict (list ufile)) :=
    let! r := mreq in
    match a_ctype (r_attrs r) with
    | None => mraise AttributeError
    | Some c =>
        if match c with Some c => seqb c CT_MULTI | None => false end
        then fun w => match u_file_upload w with
                      | (Err MultiPartParserError, w1) =>
                          (let! _ := empty_post reg in mraise MultiPartParserError) w1
                      | (Err e, w1) => (Err e, w1)
                      | (Ok pf, w1) => (Ok pf, (fst w1, set_hasfiles true (snd w1)))
                      end
        else if match c with Some c => seqb c CT_FORM | None => false end
        then let! b := body reg in
             let! q := new_query reg (Some b) false in
             let! _ := mupd (set_hasfiles true) in
             mret (PQuery q, [])
        else let! p := empty_post reg in mret (p, [])
    end.
  Definition u_request_body : M unit :=
    let! r := mreq in
    if r_bp r then mret tt
    else
      let! st := msett in
      let! _ := mupd (set_handlers (Some (s_handlers st))) in
      if negb (r_hp r)
      then let! _ := empty_post reg in mraise RequestHeaderParseException
      else
        let! data := mstream (l0_read (Some 1%Z)) in
        match data with
        | [] => let! _ := empty_post reg in mret tt
        | _ =>
            let! _ := mstream (ls_unget data) in
            let! pf := u_post in
            let! b := body reg in
            let! st := msett in
            let! t := mlift (decode_text reg (s_charset st) b) in
            mupd (fun r => set_post (Some (fst pf)) (Some (snd pf))
                             (set_flags (r_hp r) true (set_body (Some (PU t)) r)))
        end.
  Definition u_request : M unit := let! _ := parse_request_header reg in u_request_body.
End Request.
