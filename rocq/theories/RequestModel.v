(** * Model of HttpRequest: request_parser/http/request.py:56-597

    The request object and the Settings object it refers to form the state.
    An attribute is an [option]: [None] when the object does not have it (reading
    it is an AttributeError); the attributes that may be Python's None are
    options of options.  Not kept: [content_params] (always None), [_post] (never
    read) and the value of [_files] (only its presence matters, line 339).
    The charset is kept by its name; names that are not ASCII or contain NUL, for
    which Python raises other exceptions than LookupError, are looked up like others. *)
From Verif Require Import Py PyDict StreamModel CodecModel PercentModel QueryModel HeadModel HeaderModel
  BoundaryModel UploadModel MultipartModel.

(** ** The Settings object (conf/settings.py) *)
Inductive hkind := KMem | KTemp | KConv.
Definition new_handler (k : hkind) : handler :=
  match k with KMem => HMem new_mem | KTemp => HTemp new_temp | KConv => HConv new_conv end.
Record sett := mkS {
  s_hdr : option Z;                    (* MAX_HEADER_SIZE *)
  s_fmem : option Z;                   (* FILE_UPLOAD_MAX_MEMORY_SIZE *)
  s_dmem : option Z;                   (* DATA_UPLOAD_MAX_MEMORY_SIZE *)
  s_dnum : option Z;                   (* DATA_UPLOAD_MAX_NUMBER_FIELDS *)
  s_charset : str;                     (* DEFAULT_CHARSET *)
  s_handlers : list hkind }.           (* FILE_UPLOAD_HANDLERS *)
Definition s_query (st : sett) : qsettings := mkQS (s_charset st) (s_dnum st).
Definition s_multi (st : sett) : mset := mkMS (s_charset st) (s_fmem st) (s_dmem st) (s_dnum st).
Definition with_charset (v : str) (st : sett) : sett :=
  mkS (s_hdr st) (s_fmem st) (s_dmem st) (s_dnum st) v (s_handlers st).

(** ** The request object *)
(** POST: the QueryDict of a query string, or the one the multipart parser returns (immutable) *)
Inductive postv := PQuery (q : qdict) | PForm (d : dict (list entry)).
Inductive portv := PortStr (s : str) | PortInt (z : Z).
Record meta := mkMeta { m_query : option str; m_headers : option headers }.
Record attrs := mkA {
  a_method : option (option str); a_scheme : option (option str); a_host : option (option str);
  a_port : option (option portv); a_path : option (option str); a_proto : option (option str);
  a_ctype : option (option str) }.
Record request := mkR {
  r_stream : l0; r_hp : bool; r_bp : bool;
  r_get : option qdict; r_post : option postv; r_files : option (dict (list ufile));
  r_body : option pystr; r_hasfiles : bool; r_handlers : option (list hkind);
  r_meta : option meta; r_attrs : attrs }.

Definition set_stream s r := mkR s (r_hp r) (r_bp r) (r_get r) (r_post r) (r_files r) (r_body r) (r_hasfiles r) (r_handlers r) (r_meta r) (r_attrs r).
Definition set_flags h b r := mkR (r_stream r) h b (r_get r) (r_post r) (r_files r) (r_body r) (r_hasfiles r) (r_handlers r) (r_meta r) (r_attrs r).
Definition set_get g r := mkR (r_stream r) (r_hp r) (r_bp r) g (r_post r) (r_files r) (r_body r) (r_hasfiles r) (r_handlers r) (r_meta r) (r_attrs r).
Definition set_post p f r := mkR (r_stream r) (r_hp r) (r_bp r) (r_get r) p f (r_body r) (r_hasfiles r) (r_handlers r) (r_meta r) (r_attrs r).
Definition set_body b r := mkR (r_stream r) (r_hp r) (r_bp r) (r_get r) (r_post r) (r_files r) b (r_hasfiles r) (r_handlers r) (r_meta r) (r_attrs r).
Definition set_hasfiles h r := mkR (r_stream r) (r_hp r) (r_bp r) (r_get r) (r_post r) (r_files r) (r_body r) h (r_handlers r) (r_meta r) (r_attrs r).
Definition set_handlers h r := mkR (r_stream r) (r_hp r) (r_bp r) (r_get r) (r_post r) (r_files r) (r_body r) (r_hasfiles r) h (r_meta r) (r_attrs r).
Definition set_meta m r := mkR (r_stream r) (r_hp r) (r_bp r) (r_get r) (r_post r) (r_files r) (r_body r) (r_hasfiles r) (r_handlers r) m (r_attrs r).
Definition set_attrs a r := mkR (r_stream r) (r_hp r) (r_bp r) (r_get r) (r_post r) (r_files r) (r_body r) (r_hasfiles r) (r_handlers r) (r_meta r) a.

Definition no_attrs : attrs := mkA None None None None None None None.
Definition none_attrs : attrs := mkA (Some None) (Some None) (Some None) (Some None) (Some None) (Some None) (Some None).

(** ** Methods: functions from the state to a result and the state *)
Definition world := (sett * request)%type.
Definition M (A : Type) := world -> res A * world.
Definition mret {A} (a : A) : M A := fun w => (Ok a, w).
Definition mraise {A} (e : exn) : M A := fun w => (Err e, w).
Definition mbind {A B} (m : M A) (f : A -> M B) : M B :=
  fun w => match m w with (Ok a, w1) => f a w1 | (Err e, w1) => (Err e, w1) end.
Notation "'let!' x := m 'in' k" := (mbind m (fun x => k)) (at level 200, x name, m at level 100, k at level 200, right associativity).
Definition mlift {A} (r : res A) : M A := fun w => (r, w).
Definition msett : M sett := fun w => (Ok (fst w), w).
Definition mreq : M request := fun w => (Ok (snd w), w).
Definition mupd (f : request -> request) : M unit := fun w => (Ok tt, (fst w, f (snd w))).
Definition mstream {A} (f : l0 -> res A * l0) : M A :=
  fun w => let (r, s) := f (r_stream (snd w)) in (r, (fst w, set_stream s (snd w))).

Section Request.
  Context (reg : registry) (name2cp : str -> option N) (mk_temp : str -> res unit).

  (** [QueryDict(self.settings, query, mutable)] *)
  Definition new_query (q : option pystr) (mut : bool) : M qdict :=
    let! st := msett in mlift (querydict reg (Some (s_query st)) q mut).

  (** [_re_init]  87-105 *)
  Definition re_init : M unit :=
    let! q := new_query None true in
    mupd (fun r => set_attrs none_attrs (set_meta (Some (mkMeta None None)) (set_get (Some q) r))).

  (** [__init__]  59-85; before it the object has no attributes *)
  Definition blank (s : src) : request :=
    mkR (l0_init s) false false None None None None false None None no_attrs.
  Definition request_init (st : sett) (s : src) : res request :=
    let m := let! q := new_query None true in
             let! _ := mupd (set_post (Some (PQuery q)) (Some [])) in
             re_init in
    match m (st, blank s) with (Ok _, (_, r)) => Ok r | (Err e, _) => Err e end.

  (** [encoding] setter  193-209 *)
  Definition set_encoding (v : str) : M unit :=
    fun w => (Ok tt, (with_charset v (fst w), set_body None (set_get None (snd w)))).

  (** [stream] setter  217-239, with [_reset_header_meta_data] 277-308 *)
  Definition assign_stream (s : src) : M unit :=
    let! _ := mupd (fun r => set_attrs no_attrs (set_meta None (set_get None (set_stream (l0_init s) r)))) in
    let! _ := re_init in
    mupd (set_flags false false).

  (** [body_stream] setter  247-275 *)
  Definition assign_body_stream (s : src) : M unit :=
    let! _ := mupd (fun r => set_body None (set_post None None (set_stream (l0_init s) r))) in
    let! q := new_query None true in
    let! _ := mupd (set_post (Some (PQuery q)) (Some [])) in
    mupd (fun r => set_flags (r_hp r) false r).

  (** [read]  569-573: [six.reraise] is called with an instance and a value, which
      is a TypeError; UnreadablePostError (a kind of IOError) never leaves the method *)
  Definition m_read (n : option Z) : M str :=
    mstream (fun s => match l0_read n s with
                      | (Err IOError, s1) | (Err UnreadablePostError, s1) => (Err TypeError, s1)
                      | r => r
                      end).

  (** ** [parse_request_header]  398-489 *)
  Definition last_of (l : list str) : str := last l [].
  (** [request_headers.get(name)]: the last value *)
  Definition header (name : str) (h : headers) : option str := option_map last_of (dget name h).

  (** lines 443-453 *)
  Definition pick_host (l : reqline) (h : headers) : res (str * headers) :=
    if nonempty (rl_domain l) then Ok (rl_domain l, h)
    else match header !"Host" h with
         | Some v => Ok (v, ddel !"Host" h)
         | None => Err NoHostFoundException
         end.
  (** lines 464-472 *)
  Definition pick_port (port scheme : str) : portv :=
    if nonempty port then PortStr port
    else if seqb (lower scheme) !"https" then PortInt 443
    else if seqb (lower scheme) !"http" then PortInt 80
    else PortInt 65536.

  (** lines 442-489 *)
  Definition populate (l : reqline) (hs0 : headers) : M unit :=
    let! hh := mlift (pick_host l hs0) in                                     (* 443-453 *)
    let (host, hs) := (hh : str * headers) in
    let scheme := if nonempty (rl_scheme l) then lower (rl_scheme l) else !"UNKNOWN" in  (* 456-459 *)
    let (domain, port) := split_domain_port host in                           (* 462 *)
    let! _ := mupd (fun r => set_attrs
                (mkA (Some (Some (rl_method l))) (Some (Some scheme)) (Some (Some domain))
                     (Some (Some (pick_port port (rl_scheme l)))) (Some (Some (rl_path l)))
                     (Some (Some (rl_proto l))) (a_ctype (r_attrs r))) r) in   (* 457-476 *)
    let! ch := match header !"Content-Type" hs with                           (* 478 *)
               | None => mret (None, None)
               | Some v => let! p := mlift (parse_header reg v) in mret (Some (fst p), dget !"charset" (snd p))
               end in
    let! _ := mupd (fun r => let a := r_attrs r in
                set_attrs (mkA (a_method a) (a_scheme a) (a_host a) (a_port a) (a_path a) (a_proto a) (Some (fst ch))) r) in
    let! _ := match snd (ch : option str * option pystr) with                 (* 480-484 *)
              | Some v => set_encoding (pchars v)
              | None => mret tt
              end in
    let! r := mreq in
    match r_meta r with
    | None => mraise AttributeError
    | Some m =>
        let q := rl_query l in
        let! _ := mupd (set_meta (Some (mkMeta (Some q) (m_headers m)))) in    (* 486 *)
        let! g := (if nonempty q then new_query (Some (PB q)) false else new_query None true) in   (* 487 *)
        mupd (fun r => set_meta (Some (mkMeta (Some q) (Some hs))) (set_get (Some g) r))          (* 487-489 *)
    end.

  Definition parse_request_header : M unit :=
    let! r := mreq in
    if r_hp r then mret tt                                                    (* 403-404 *)
    else
      let! st := msett in
      let! hdr := (fun w => match frame (s_hdr st) (r_stream (snd w)) with    (* 410-436 *)
                            | (x, started, s1) => (x, (fst w, set_flags started (r_bp (snd w)) (set_stream s1 (snd w))))
                            end) in
      let! lh := mlift (parse_request_headers hdr) in                         (* 439 *)
      let! l := mlift (parse_request_line (fst lh)) in                        (* 440 *)
      populate l (snd lh).

  (** ** [body]  357-396 *)
  Definition CT_FORM : str := !"application/x-www-form-urlencoded".
  Definition CT_MULTI : str := !"multipart/form-data".
  Definition is_form (c : option str) : bool :=
    match c with Some c => seqb c CT_FORM || seqb c CT_MULTI | None => false end.

  (** the loop of lines 379-385 after the first read; [read_size] is an integer and,
      in Python 2, greater than None *)
  Definition BLOCK : Z := 65536.
  Definition within_max (n : Z) (max : option Z) : bool := match max with Some m => Z.leb n m | None => false end.
  Fixpoint body_loop (fuel : nat) (max : option Z) (size : Z) (chunk acc : str) : M (str * Z) :=
    match fuel with
    | 0 => mraise OutOfFuel
    | S f =>
        if within_max size max && nonempty chunk
        then let! c := m_read (Some BLOCK) in body_loop f max (size + zlen c) c (acc ++ chunk)
        else mret (acc, size)
    end.
  (** lines 367-391 *)
  Definition read_body : M pystr :=
    let! st := msett in
    let! r := mreq in
    let! c := m_read (Some BLOCK) in
    let! x := body_loop (2 + l0_total (r_stream r)) (s_dmem st) (zlen c) c [] in
    if within_max (snd x) (s_dmem st)
    then let! _ := mupd (set_body (Some (PB (fst x)))) in mret (PB (fst x))
    else mraise RequestDataTooBig.

  (** with the header parsed *)
  Definition body1 : M pystr :=
    let! r := mreq in
    if r_bp r && match a_ctype (r_attrs r) with None => true | Some c => is_form c end
    then mraise (match a_ctype (r_attrs r) with None => AttributeError | Some _ => RawPostDataException end)  (* 364-365 *)
    else match r_body r with
         | Some b => mret b                                                   (* 396 *)
         | None => if r_hp r then read_body else mraise AttributeError        (* the second case is not reachable *)
         end.
  Definition body : M pystr :=
    let! r := mreq in
    if r_hp r || (r_bp r && match a_ctype (r_attrs r) with None => true | Some c => is_form c end)
    then body1
    else let! _ := parse_request_header in body1.                             (* 393-395 *)

  (** ** [parse_request_body]  495-554 *)
  (** [_mark_post_parse_error]  491-493, and lines 521 and 542 *)
  Definition empty_post : M postv :=
    let! q := new_query None false in
    let! _ := mupd (set_hasfiles true) in
    mret (PQuery q).

  (** [bytes.decode(enc)] and [unicode.decode(enc)] *)
  Definition decode_text (enc : str) (p : pystr) : res str :=
    match p with
    | PB b => decode reg enc b
    | PU u => match reg enc with
              | None => Err LookupError
              | Some _ => if ascii_only u then decode reg enc u else Err UnicodeEncodeError
              end
    end.

  (** the chunk size of the parser: multipartparser.py:87-88; all handlers have 64 KB *)
  Definition mp_chunk (hs : list hkind) : nat :=
    match hs with [] => Z.to_nat (2 ^ 31 - 4) | _ => Z.to_nat 65536 end.
  Definition l0_rd (n : nat) (s : l0) : res str * l0 := l0_read (Some (Z.of_nat n)) s.
  Definition l0_exh (s : l0) : res unit * l0 := ls_drain it_next (4 + src_items s) s.

  (** [_parse_file_upload]  352-355 and MultiPartParser *)
  Definition parse_file_upload : M (postv * dict (list ufile)) :=
    let! r := mreq in
    let! st := msett in
    match r_meta r with
    | None => mraise AttributeError
    | Some m =>
        match m_headers m with
        | None => mraise AttributeError                                       (* None.get(...) *)
        | Some h =>
            let! bl := mlift (mp_init reg (header !"Content-Type" h) (header !"Content-Length" h)) in
            let! pf := mstream (fun s => mp_parse l0_rd l0_exh reg name2cp mk_temp (s_multi st)
                                           (!"--" ++ pchars (fst bl)) (2 * l0_total s + 4)
                                           (mp_chunk (s_handlers st)) (snd bl) (map new_handler (s_handlers st)) s) in
            mret (PForm (fst pf), snd pf)
        end
    end.

  (** lines 525-542 *)
  Definition parse_post : M (postv * dict (list ufile)) :=
    let! r := mreq in
    match a_ctype (r_attrs r) with
    | None => mraise AttributeError
    | Some c =>
        if match c with Some c => seqb c CT_MULTI | None => false end
        then fun w => match parse_file_upload w with
                      | (Err MultiPartParserError, w1) =>                     (* 529-535 *)
                          (let! _ := empty_post in mraise MultiPartParserError) w1
                      | (Err e, w1) => (Err e, w1)
                      | (Ok pf, w1) => (Ok pf, (fst w1, set_hasfiles true (snd w1)))
                      end
        else if match c with Some c => seqb c CT_FORM | None => false end
        then let! b := body in
             let! q := new_query (Some b) false in
             let! _ := mupd (set_hasfiles true) in
             mret (PQuery q, [])
        else let! p := empty_post in mret (p, [])
    end.

  Definition parse_request_body : M unit :=
    let! r := mreq in
    if r_bp r then mret tt                                                    (* 501-502 *)
    else
      let! st := msett in
      let! _ := mupd (set_handlers (Some (s_handlers st))) in                 (* 505 *)
      if negb (r_hp r)
      then let! _ := empty_post in mraise RequestHeaderParseException         (* 511-513 *)
      else
        let! data := mstream (l0_read (Some 1%Z)) in                          (* 517 *)
        match data with
        | [] => let! _ := empty_post in mret tt                               (* 520-522 *)
        | _ =>
            let! _ := mstream (ls_unget data) in                              (* 523 *)
            let! pf := parse_post in
            let! b := body in                                                 (* 545-549 *)
            let! st := msett in
            let! t := mlift (decode_text (s_charset st) b) in
            mupd (fun r => set_post (Some (fst pf)) (Some (snd pf))
                             (set_flags (r_hp r) true (set_body (Some (PU t)) r)))    (* 549-553 *)
        end.

  (** [parse]  343-350 *)
  Definition parse : M unit := let! _ := parse_request_header in parse_request_body.

  (** [upload_handlers]  330-341 *)
  Definition get_handlers : M (list hkind) :=
    let! r := mreq in
    let! st := msett in
    match r_handlers r with
    | None => mraise AttributeError
    | Some [] => let! _ := mupd (set_handlers (Some (s_handlers st))) in mret (s_handlers st)
    | Some h => mret h
    end.
  Definition assign_handlers (h : list hkind) : M unit :=
    let! r := mreq in
    if r_hasfiles r then mraise AttributeError else mupd (set_handlers (Some h)).

  (** ** Accessors *)
  Definition attr {A} (f : attrs -> option A) (r : request) : res A :=
    match f (r_attrs r) with Some v => Ok v | None => Err AttributeError end.
  Definition get_path (r : request) : res str :=                              (* 112-116 *)
    let* p := attr a_path r in Ok (match p with Some p => p | None => [] end).
  Definition get_query (r : request) : res str :=
    match r_meta r with
    | None => Err AttributeError
    | Some m => Ok (match m_query m with Some q => q | None => [] end)
    end.
  (** [get_full_path], [_get_full_path]  134-153, for [raw=False] and a path of bytes *)
  Definition get_full_path (slash : bool) (r : request) : res str :=
    let* path := get_path r in
    let* q := get_query r in
    Ok (escape_uri_path false path ++ (if slash && negb (endswith path !"/") then !"/" else [])
        ++ (if nonempty q then !"?" ++ iri_to_uri q else [])).
  (** what format() prints for an attribute *)
  Definition shown (v : option str) : str := match v with Some s => s | None => !"None" end.
  (** [get_uri]  155-163, for [raw=False] *)
  Definition get_uri (r : request) : res str :=
    let* s := attr a_scheme r in
    let* h := attr a_host r in
    let* p := get_full_path false r in
    Ok (shown s ++ !"://" ++ shown h ++ p).
  (** [set_path]  310-320; the path is given by its UTF-8 bytes *)
  Definition set_path (p : str) (safely : bool) : M unit :=
    mupd (fun r => let a := r_attrs r in
      set_attrs (mkA (a_method a) (a_scheme a) (a_host a) (a_port a)
                     (Some (Some (if safely then escape_uri_path false (iri_to_uri p) else p))) (a_proto a) (a_ctype a)) r).
  (** [set_scheme]  124-126 *)
  Definition set_scheme (s : str) : M unit :=
    mupd (fun r => let a := r_attrs r in
      if nonempty s
      then set_attrs (mkA (a_method a) (Some (Some s)) (a_host a) (a_port a) (a_path a) (a_proto a) (a_ctype a)) r
      else r).
  (** [is_secure], [is_plain_text], [is_ajax]  171-187 *)
  Definition is_secure (r : request) : res bool :=
    let* s := attr a_scheme r in Ok (match s with Some s => seqb s !"https" | None => false end).
  Definition is_plain_text (r : request) : res bool :=
    let* c := attr a_ctype r in Ok (match c with Some c => seqb c !"text/plain" | None => false end).
  Definition is_ajax (r : request) : res bool :=
    match r_meta r with
    | None => Err AttributeError
    | Some m => match m_headers m with
                | None => Err KeyError
                | Some h => Ok (dmem !"XMLHttpRequest" h)
                end
    end.
  (** [stream] and [body_stream] getters  211-215, 241-245: a LazyStream is always true *)
  Definition get_stream (r : request) : option l0 := None.
  (** [readline], iteration, [xreadlines], [readlines]  575-597: a LazyStream has no [readline] *)
  Definition readline (r : request) : res str := Err AttributeError.

  (** ** Histories: any calls, in any order, by a program that may also change the
      Settings object and assign [content_type] *)
  Inductive op :=
  | OHeader | OBody | OParseBody | OParse | ORead (n : option Z)
  | OStream (s : src) | OBodyStream (s : src) | OEncoding (v : str)
  | OSetPath (p : str) (safely : bool) | OSetScheme (s : str) | OContentType (c : option str)
  | OHandlers (h : list hkind) | OGetHandlers | OSettings (st : sett).
  Inductive value := VNone | VText (p : pystr) | VHandlers (h : list hkind).

  Definition vmap {A} (f : A -> value) (m : M A) : M value := let! x := m in mret (f x).
  Definition vunit (m : M unit) : M value := vmap (fun _ => VNone) m.
  Definition perform (o : op) : M value :=
    match o with
    | OHeader => vunit parse_request_header
    | OBody => vmap VText body
    | OParseBody => vunit parse_request_body
    | OParse => vunit parse
    | ORead n => vmap (fun s => VText (PB s)) (m_read n)
    | OStream s => vunit (assign_stream s)
    | OBodyStream s => vunit (assign_body_stream s)
    | OEncoding v => vunit (set_encoding v)
    | OSetPath p safely => vunit (set_path p safely)
    | OSetScheme s => vunit (set_scheme s)
    | OContentType c => vunit (mupd (fun r => let a := r_attrs r in
        set_attrs (mkA (a_method a) (a_scheme a) (a_host a) (a_port a) (a_path a) (a_proto a) (Some c)) r))
    | OHandlers h => vunit (assign_handlers h)
    | OGetHandlers => vmap VHandlers get_handlers
    | OSettings st => fun w => (Ok VNone, (st, snd w))
    end.
  (** a history: exceptions are caught and the program goes on *)
  Definition after (os : list op) (w : world) : world := fold_left (fun w o => snd (perform o w)) os w.
End Request.
