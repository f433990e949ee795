(** * Model of the multipart parser: request_parser/http/multipartparser.py:35-340, 475-564

    Parameters: the codec registry, [htmlentitydefs.name2codepoint], the creation
    of temporary files, and the object the body is read from: [rd n] is its
    [read(n)] and [exh] iterates over it until it stops (lines 475-483).
    The upload handlers are those of files/uploadhandler.py; handlers written by
    users, and with them SkipFile and StopUpload (lines 286-289, 302-305), are in
    CustomModel; CustomLib proves that the two agree.  [fuel] bounds every loop; running out is [OutOfFuel]. *)
From Verif Require Import Py PyDict StreamModel CodecModel QueryModel Base64Model HeaderModel
  BoundaryModel UploadModel.

(** the settings the parser reads (conf/settings.py) *)
Record mset := mkMS {
  ms_charset : str;                    (* DEFAULT_CHARSET *)
  ms_fmem : option Z;                  (* FILE_UPLOAD_MAX_MEMORY_SIZE *)
  ms_dmem : option Z;                  (* DATA_UPLOAD_MAX_MEMORY_SIZE *)
  ms_dnum : option Z }.                (* DATA_UPLOAD_MAX_NUMBER_FIELDS *)
Definition ms_query (st : mset) : qsettings := mkQS (ms_charset st) (ms_dnum st).

(** the value stored in POST for a field: lines 214-219 *)
Record entry := mkEntry { en_data : str; en_ctype : str; en_tenc : str; en_extra : dict pystr }.

(** ** Set-up: [MultiPartParser.__init__], lines 42-93 *)
(** [cgi.valid_boundary]: [^[ -~]{0,200}[!-~]$]; [$] also matches before a final newline *)
Definition is_printable (c : char) : bool := N.leb 32 c && N.leb c 126.
Definition boundary_match (s : str) : bool :=
  match rev s with
  | c :: r => N.leb 33 c && N.leb c 126 && forallb is_printable r && Nat.leb (length r) 200
  | [] => false
  end.
Definition valid_boundary (s : str) : bool :=
  boundary_match s ||
  match rev s with c :: r => N.eqb c LF && boundary_match (rev r) | [] => false end.

(** the boundary (without the two hyphens) and the content length.
    [ctype], [clen]: the values of Content-Type and Content-Length in META, if present *)
Definition mp_init (reg : registry) (ctype clen : option str) : res (pystr * Z) :=
  let content_type := match ctype with Some v => v | None => [] end in
  if negb (startswith content_type !"multipart/") then Err MultiPartParserError       (* 59-61 *)
  else if negb (ascii_only content_type) then Err UnicodeDecodeError                  (* 64: implicit decoding *)
  else
    let* h := parse_header reg content_type in                                        (* 64 *)
    let* b :=
      match dget !"boundary" (snd h) with                                             (* 65 *)
      | None => Err AttributeError                                                    (* 67: None.decode() *)
      | Some b => if pnonempty b && valid_boundary (pchars b) then Ok b               (* 66 *)
                  else let* _ := to_native b in Err MultiPartParserError              (* 67 *)
      end in
    let length := match clen with
                  | None => 0%Z
                  | Some v => match py_int 10 v with Some z => z | None => 0%Z end       (* 71-74 *)
                  end in
    if Z.ltb length 0 then Err MultiPartParserError                                   (* 76-78 *)
    else Ok (b, length).

(** ** Part headers: [parse_boundary_stream], lines 485-543 *)
Inductive ptype := RAW | FILE | FIELD.
Definition pmeta := dict (str * dict pystr).

(** ValueError and its subclasses *)
Definition is_value_error (e : exn) : bool :=
  match e with ValueError | UnicodeDecodeError | UnicodeEncodeError => true | _ => false end.

Definition mcolon : N := 58%N.
(** [_parse_header], lines 499-505 *)
Definition part_header (reg : registry) (line : str) : res (str * (str * dict pystr)) :=
  let* h := parse_header reg line in
  match split1 mcolon (fst h) with
  | Some (name, value) => Ok (name, (value, snd h))
  | None => Err ValueError
  end.

Definition CDISP : str := !"content-disposition".
Definition truthy_param (n : str) (d : dict pystr) : bool :=
  match dget n d with Some p => pnonempty p | None => false end.

(** the loop of lines 523-536 *)
Fixpoint header_meta (reg : registry) (lines : list str) (ty : ptype) (out : pmeta) : res (ptype * pmeta) :=
  match lines with
  | [] => Ok (ty, out)
  | line :: rest =>
      match part_header reg line with
      | Err e => if is_value_error e then header_meta reg rest ty out else Err e      (* 528-529 *)
      | Ok (name, (value, params)) =>
          let ty := if seqb name CDISP
                    then if truthy_param !"filename" params then FILE else FIELD      (* 531-534 *)
                    else ty in
          header_meta reg rest ty (dset name (value, params) out)                     (* 536 *)
      end
  end.

Definition MAX_PART_HEADER : Z := 1024.                                               (* 564 *)

(** [IE_sanitize], lines 330-332 *)
Definition ie_sanitize (f : str) : str :=
  match f with
  | [] => []
  | _ => strip (match rfindc hback f with Some i => skipn (S i) f | None => f end)
  end.

(** [_post.appendlist(name, entry)]: QueryDict (request.py:694-708) and MultiValueDict
    (datastructures.py:157-171); the key is converted twice when it is new, and when the
    two conversions differ the entry goes to a list that is not stored *)
Definition post_append (reg : registry) (enc name : str) (e : entry) (d : dict (list entry))
  : res (dict (list entry)) :=
  let* k := bytes_to_text reg enc (PB name) in
  let* d := if dmem (key_of k) d then Ok d
            else let* k2 := bytes_to_text reg enc k in Ok (dset (key_of k2) [] d) in
  Ok (match dget (key_of k) d with
      | Some l => dset (key_of k) (l ++ [e]) d
      | None => d
      end).

(** [_files.appendlist(name, file)]: datastructures.py:169-171 *)
Definition files_append (name : str) (f : ufile) (d : dict (list ufile)) : dict (list ufile) :=
  dset name (match dget name d with Some l => l | None => [] end ++ [f]) d.

(** the state of the loop of lines 138-295; [p_old = []]: no pending file (line 151) *)
Record pst := mkP {
  p_post : dict (list entry); p_files : dict (list ufile); p_old : str;
  p_counters : list nat; p_hs : list handler; p_bytes : Z; p_keys : Z }.

Section Files.
  Context (mk_temp : str -> res unit) (max : option Z).

  (** [if file_obj:] is [len(file_obj) != 0]: files/base.py:27-28 ([__bool__] is not
      used by Python 2) *)
  Definition file_truthy (f : ufile) : bool := negb (Nat.eqb (uf_size f) 0).

  (** [handle_file_complete], lines 318-327 *)
  Fixpoint file_complete (name : str) (hs : list handler) (cs : list nat) (files : dict (list ufile))
    : res (dict (list ufile)) :=
    match hs, cs with
    | h :: hs', c :: cs' =>
        let* f := h_complete c h in
        match f with
        | Some f => if file_truthy f then Ok (files_append name f files)
                    else file_complete name hs' cs' files
        | None => file_complete name hs' cs' files
        end
    | _, _ => Ok files
    end.

  (** lines 241-251 *)
  Fixpoint new_files (i : finfo) (hs : list handler) : res (list handler) :=
    match hs with
    | [] => Ok []
    | h :: hs' =>
        match h_new_file mk_temp i h with
        | (Ok _, h) => let* r := new_files i hs' in Ok (h :: r)
        | (Err StopFutureHandlers, h) => Ok (h :: hs')
        | (Err e, _) => Err e
        end
    end.

  (** lines 273-283 *)
  Fixpoint feed (chunk : str) (hs : list handler) (cs : list nat) : res (list handler * list nat) :=
    match hs, cs with
    | h :: hs', c :: cs' =>
        match h_receive mk_temp max chunk h with
        | (Err e, _) => Err e
        | (Ok None, h) => Ok (h :: hs', (c + length chunk) :: cs')
        | (Ok (Some d), h) => let* r := feed d hs' cs' in
                              Ok (h :: fst r, (c + length chunk) :: snd r)
        end
    | _, _ => Ok (hs, cs)
    end.
End Files.

Section Parser.
  Context {R : Type} (rd : nat -> R -> res str * R) (exh : R -> res unit * R).
  Context (reg : registry) (name2cp : str -> option N) (mk_temp : str -> res unit).
  Context (st : mset) (D : str) (fuel : nat).

  Notation P1 := (chunkiter R).
  Notation L1 := (lstream P1).
  Notation L2 := (lstream (biter P1)).
  Notation pn1 := (ci_next rd).
  Notation pn2 := (bi_next pn1 fuel).

  (** the outer stream, shared by all parts *)
  Definition outer_of (dflt : L1) (s : L2) : L1 :=
    match ls_prod s with Some b => bi_stream b | None => dflt end.
  Definition input_of (dflt : R) (s : L1) : R :=
    match ls_prod s with Some c => ci_flo c | None => dflt end.

  (** lines 485-543 *)
  Definition parse_boundary_stream (s : L2) : res (ptype * pmeta) * L2 :=
    match ls_read pn2 fuel (Some MAX_PART_HEADER) s with                              (* 492 *)
    | (Err e, s1) => (Err e, s1)
    | (Ok chunk, s1) =>
        match find crlfcrlf chunk with                                                (* 497 *)
        | None => match ls_unget chunk s1 with                                        (* 507-511 *)
                  | (Err e, s2) => (Err e, s2)
                  | (Ok _, s2) => (Ok (RAW, []), s2)
                  end
        | Some i =>
            match ls_unget (skipn (i + 4) chunk) s1 with                              (* 517 *)
            | (Err e, s2) => (Err e, s2)
            | (Ok _, s2) =>
                match header_meta reg (split crlf (firstn i chunk)) RAW [] with       (* 513-536 *)
                | Err e => (Err e, s2)
                | Ok (RAW, m) => match ls_unget chunk s2 with                         (* 540-541 *)
                                 | (Err e, s3) => (Err e, s3)
                                 | (Ok _, s3) => (Ok (RAW, m), s3)
                                 end
                | Ok (ty, m) => (Ok (ty, m), s2)
                end
            end
        end
    end.

  (** ** One field: lines 170-220 *)
  Definition read_field (name : str) (tenc : option str) (m : pmeta) (p : pst) (s : L2) : res pst * L2 :=
    let keys := (p_keys p + 1)%Z in                                                   (* 172 *)
    if match ms_dnum st with Some n => Z.ltb n keys | None => false end
    then (Err TooManyFieldsSent, s)                                                   (* 173-178 *)
    else
      let size := option_map (fun n => (n - p_bytes p)%Z) (ms_dmem st) in             (* 147, 181-182 *)
      match ls_read pn2 fuel size s with                                              (* 187, 195 *)
      | (Err e, s1) => (Err e, s1)
      | (Ok raw, s1) =>
          match (match tenc with
                 | Some t => if seqb t !"base64" then b64decode raw else Ok raw       (* 185-193 *)
                 | None => Ok raw
                 end) with
          | Err e => (Err e, s1)
          | Ok data =>
              let bytes := (p_bytes p + zlen raw + (zlen name + 2))%Z in              (* 188, 196, 202 *)
              if match ms_dmem st with Some n => Z.ltb n bytes | None => false end
              then (Err RequestDataTooBig, s1)                                        (* 203-205 *)
              else
                let (ct, extra) := match dget !"content-type" m with
                                   | Some v => v
                                   | None => ([], [])
                                   end in                                             (* 210 *)
                let e := mkEntry data (ustrip ct) (match tenc with Some t => t | None => [] end) extra in
                match post_append reg (ms_charset st) name e (p_post p) with          (* 214-220 *)
                | Err x => (Err x, s1)
                | Ok post => (Ok (mkP post (p_files p) (p_old p) (p_counters p) (p_hs p) bytes keys), s1)
                end
          end
      end.

  (** ** One file: lines 221-292 *)
  (** lines 262-265: complete a group of base64 characters to a multiple of four *)
  Fixpoint b64_fill (n : nat) (acc : str) (s : L2) : res str * L2 :=
    match n with
    | 0 => (Err OutOfFuel, s)
    | S n' =>
        let rem := Nat.modulo (length acc) 4 in
        if Nat.eqb rem 0 then (Ok acc, s)
        else match ls_read pn2 fuel (Some (Z.of_nat (4 - rem))) s with
             | (Err e, s1) => (Err e, s1)
             | (Ok over, s1) => b64_fill n' (acc ++ remove_ws over) s1
             end
    end.

  (** lines 253-283; [raise_from] (line 271) is six.reraise called with an instance:
      a TypeError *)
  Fixpoint file_loop (n : nat) (b64 : bool) (hs : list handler) (cs : list nat) (s : L2)
    : res (list handler * list nat) * L2 :=
    match n with
    | 0 => (Err OutOfFuel, s)
    | S n' =>
        match ls_next pn2 s with
        | (Stop, s1) => (Ok (hs, cs), s1)
        | (Raise e, s1) => (Err e, s1)
        | (Chunk c, s1) =>
            match (if b64 then
                     match b64_fill fuel (remove_ws c) s1 with                        (* 259-265 *)
                     | (Err e, s2) => (Err e, s2)
                     | (Ok g, s2) => (match b64decode g with Ok d => Ok d | Err _ => Err TypeError end, s2)
                     end
                   else (Ok c, s1)) with
            | (Err e, s2) => (Err e, s2)
            | (Ok d, s2) =>
                match feed mk_temp (ms_fmem st) d hs cs with
                | Err e => (Err e, s2)
                | Ok (hs, cs) => file_loop n' b64 hs cs s2
                end
            end
        end
    end.

  Definition read_file (name : str) (tenc : option str) (disp : dict pystr) (m : pmeta) (p : pst) (s : L2)
    : res pst * L2 :=
    match (match dget !"filename" disp with                                           (* 223-226 *)
           | Some f => if pnonempty f
                       then let* f := to_native f in
                            let* f := unescape_entities name2cp f in Ok (ie_sanitize f)
                       else Ok []
           | None => Ok []
           end) with
    | Err e => (Err e, s)
    | Ok [] => (Ok p, s)                                                              (* 227-228 *)
    | Ok file_name =>
        let (ct, extra) := match dget !"content-type" m with
                           | Some v => v
                           | None => ([], [])
                           end in
        let i := mkInfo name file_name (ustrip ct) (dget !"charset" extra) extra tenc in   (* 230-232 *)
        match new_files mk_temp i (p_hs p) with                                       (* 239-251 *)
        | Err e => (Err e, s)
        | Ok hs =>
            match file_loop fuel (match tenc with Some t => seqb t !"base64" | None => false end)
                    hs (map (fun _ => 0) hs) s with
            | (Err e, s1) => (Err e, s1)
            | (Ok (hs, cs), s1) =>
                (Ok (mkP (p_post p) (p_files p) name cs hs (p_bytes p) (p_keys p)), s1)     (* 292 *)
            end
        end
    end.

  (** ** One turn of the loop of lines 150-295 *)
  Definition finish_file (p : pst) : res pst :=                                       (* 151-156 *)
    match p_old p with
    | [] => Ok p
    | name => let* files := file_complete name (p_hs p) (p_counters p) (p_files p) in
              Ok (mkP (p_post p) files [] (p_counters p) (p_hs p) (p_bytes p) (p_keys p))
    end.

  Definition pstrip (x : pystr) : pystr := match x with PB s => PB (strip s) | PU s => PU (ustrip s) end.

  Definition one_part (ty : ptype) (m : pmeta) (p : pst) (s : L2) : res pst * L2 :=
    match dget CDISP m with
    | None => (Ok p, s)                                                               (* 161: KeyError *)
    | Some (_, disp) =>
        match dget !"name" disp with
        | None => (Ok p, s)                                                           (* 161: KeyError *)
        | Some raw =>
            let tenc := option_map (fun v => ustrip (fst v)) (dget !"content-transfer-encoding" m) in
            match to_native (pstrip raw) with                                         (* 160, 168 *)
            | Err e => (Err e, s)
            | Ok name =>
                match ty with
                | FIELD => read_field name tenc m p s
                | FILE => read_file name tenc disp m p s
                | RAW => (Ok p, s)                (* not reachable: RAW parts have no content-disposition *)
                end
            end
        end
    end.

  (** the loop of lines 150-295 over Parser and InterBoundaryIter (342-364, 545-564) *)
  Fixpoint parts_loop (n : nat) (p : pst) (s : L1) : res pst * L1 :=
    match n with
    | 0 => (Err OutOfFuel, s)
    | S n' =>
        match bi_init pn1 fuel s D with                                               (* 362 *)
        | (Err InputStreamExhausted, s1) => (Ok p, s1)                                (* 363-364 *)
        | (Err e, s1) => (Err e, s1)
        | (Ok b, s1) =>
            match parse_boundary_stream (ls_init b None) with                         (* 564 *)
            | (Err e, s2) => (Err e, outer_of s1 s2)
            | (Ok (ty, m), s2) =>
                match finish_file p with
                | Err e => (Err e, outer_of s1 s2)
                | Ok p1 =>
                    match one_part ty m p1 s2 with
                    | (Err e, s3) => (Err e, outer_of s1 s3)
                    | (Ok p2, s3) => parts_loop n' p2 (outer_of s1 s3)
                    end
                end
            end
        end
    end.

  (** ** [parse], lines 95-316.  [csize]: the smallest chunk size of the handlers (87-88) *)
  Definition mp_parse (csize : nat) (content_length : Z) (hs : list handler) (r : R)
    : res (dict (list entry) * dict (list ufile)) * R :=
    match querydict reg (Some (ms_query st)) None true with                           (* 110, 132 *)
    | Err e => (Err e, r)
    | Ok _ =>
        if Z.eqb content_length 0 then (Ok ([], []), r)                               (* 109-110 *)
        else
          let hs := map (h_raw_input (ms_fmem st) content_length) hs in               (* 114-129 *)
          let p := mkP [] [] [] (map (fun _ => 0) hs) hs 0 0 in                       (* 132-147 *)
          match parts_loop fuel p (ls_init (mkCI r csize) None) with
          | (Err e, s) => (Err e, input_of r s)
          | (Ok p, s) =>
              match exh (input_of r s) with                                           (* 308 *)
              | (Err e, r) => (Err e, r)
              | (Ok _, r) => (Ok (p_post p, p_files p), r)
              end
          end
    end.
End Parser.

(** ** Two objects a body is read from *)
(** [exhaust] over a BytesIO, a file or any other iterator of byte strings *)
Fixpoint it_exhaust (s : src) : res unit * src :=
  match s with
  | [] => (Ok tt, [])
  | SData _ :: r => it_exhaust r
  | SFail e :: r => (Err e, r)
  end.
(** [exhaust] over a LazyStream (HttpRequest passes its own: request.py:528) *)
Fixpoint ls_drain {P} (pnext : P -> nxt * P) (n : nat) (s : lstream P) : res unit * lstream P :=
  match n with
  | 0 => (Err OutOfFuel, s)
  | S n' => match ls_next pnext s with
            | (Stop, s1) => (Ok tt, s1)
            | (Raise e, s1) => (Err e, s1)
            | (Chunk _, s1) => ls_drain pnext n' s1
            end
  end.
