(** * The multipart parser with arbitrary upload handlers:
    request_parser/http/multipartparser.py:95-340 and the base class
    request_parser/files/uploadhandler.py:18-123

    MultipartModel has the library's handlers built in.  Here a handler is any object: its
    state is of an arbitrary type [S] and its methods are functions on it, so that SkipFile,
    StopUpload and StopFutureHandlers, raised by handlers that users write, are covered.
    Handlers of several classes in one list: [S] is a sum.  In [c_parse] a handler does
    not itself read from [input_data]; in [c_parse_in] it may, in handle_raw_input.  File objects are of an arbitrary type
    [F]; what handle_raw_input may return instead of None is of an arbitrary type [X]. *)
From Verif Require Import Py PyDict StreamModel CodecModel QueryModel Base64Model HeaderModel
  BoundaryModel UploadModel MultipartModel.

(** what a method raises: SkipFile, StopUpload(connection_reset), StopFutureHandlers
    (uploadhandler.py:24-52), or anything else *)
Inductive cexn := CExn (e : exn) | CSkip | CStop (reset : bool) | CFuture.
Inductive cr (A : Type) := Good (a : A) | Bad (x : cexn).
Arguments Good {A} a.
Arguments Bad {A} x.

(** the methods of a handler, uploadhandler.py:69-123; [o_close] is [handler.file.close()] if
    there is a [file] (multipartparser.py:338-340); [o_end] is upload_complete, and whether
    what it returns counts as true *)
Record ops (S F X : Type) := mkOps {
  o_raw : Z -> S -> cr (option X) * S;
  o_new : finfo -> option Z -> S -> cr unit * S;
  o_data : str -> nat -> S -> cr (option str) * S;
  o_done : nat -> S -> cr (option F) * S;
  o_close : S -> cr unit * S;
  o_end : S -> cr bool * S }.
Arguments o_raw {S F X}. Arguments o_new {S F X}. Arguments o_data {S F X}.
Arguments o_done {S F X}. Arguments o_close {S F X}. Arguments o_end {S F X}.

Definition of_res {A} (r : res A) : cr A := match r with Ok a => Good a | Err e => Bad (CExn e) end.

(** [_files.appendlist]: datastructures.py:169-171 *)
Definition gappend {F} (name : str) (f : F) (d : dict (list F)) : dict (list F) :=
  dset name (match dget name d with Some l => l | None => [] end ++ [f]) d.

(** the state of the loop of lines 138-295; [c_core] holds POST and the two counts of its limits *)
Record cst (S F : Type) := mkC {
  c_core : pst; c_files : dict (list F); c_old : str; c_counters : list nat; c_hs : list S }.
Arguments mkC {S F}. Arguments c_core {S F}. Arguments c_files {S F}. Arguments c_old {S F}.
Arguments c_counters {S F}. Arguments c_hs {S F}.

Section Handlers.
  Context {S F X : Type} (O : ops S F X) (truthy : F -> bool).

  (** lines 114-129 *)
  Fixpoint c_raw (len : Z) (hs : list S) : cr (option X) * list S :=
    match hs with
    | [] => (Good None, [])
    | h :: hs' =>
        match o_raw O len h with
        | (Good None, h1) => let (r, hs1) := c_raw len hs' in (r, h1 :: hs1)
        | (r, h1) => (r, h1 :: hs')
        end
    end.
  (** [handle_file_complete], lines 318-327 *)
  Fixpoint c_complete (name : str) (hs : list S) (cs : list nat) (files : dict (list F)) : cr (dict (list F)) * list S :=
    match hs, cs with
    | h :: hs', c :: cs' =>
        match o_done O c h with
        | (Bad x, h1) => (Bad x, h1 :: hs')
        | (Good o, h1) =>
            if match o with Some f => truthy f | None => false end
            then (Good (match o with Some f => gappend name f files | None => files end), h1 :: hs')
            else let (r, hs1) := c_complete name hs' cs' files in (r, h1 :: hs1)
        end
    | _, _ => (Good files, hs)
    end.
  (** lines 241-251 *)
  Fixpoint c_new (i : finfo) (len : option Z) (hs : list S) : cr unit * list S :=
    match hs with
    | [] => (Good tt, [])
    | h :: hs' =>
        match o_new O i len h with
        | (Good _, h1) => let (r, hs1) := c_new i len hs' in (r, h1 :: hs1)
        | (Bad CFuture, h1) => (Good tt, h1 :: hs')
        | (Bad x, h1) => (Bad x, h1 :: hs')
        end
    end.
  (** lines 273-283 *)
  Fixpoint c_feed (chunk : str) (hs : list S) (cs : list nat) : cr unit * (list S * list nat) :=
    match hs, cs with
    | h :: hs', c :: cs' =>
        match o_data O chunk c h with
        | (Bad x, h1) => (Bad x, (h1 :: hs', c :: cs'))
        | (Good None, h1) => (Good tt, (h1 :: hs', (c + length chunk) :: cs'))
        | (Good (Some d), h1) =>
            let (r, hc) := c_feed d hs' cs' in (r, (h1 :: fst hc, (c + length chunk) :: snd hc))
        end
    | _, _ => (Good tt, (hs, cs))
    end.
  (** [_close_files], lines 334-340 *)
  Fixpoint c_close (hs : list S) : cr unit * list S :=
    match hs with
    | [] => (Good tt, [])
    | h :: hs' =>
        match o_close O h with
        | (Good _, h1) => let (r, hs1) := c_close hs' in (r, h1 :: hs1)
        | (Bad x, h1) => (Bad x, h1 :: hs')
        end
    end.
  (** line 314: any() stops at the first true value *)
  Fixpoint c_end (hs : list S) : cr unit * list S :=
    match hs with
    | [] => (Good tt, [])
    | h :: hs' =>
        match o_end O h with
        | (Good true, h1) => (Good tt, h1 :: hs')
        | (Good false, h1) => let (r, hs1) := c_end hs' in (r, h1 :: hs1)
        | (Bad x, h1) => (Bad x, h1 :: hs')
        end
    end.

  (** lines 151-156 *)
  Definition c_finish (p : cst S F) : cr unit * cst S F :=
    match c_old p with
    | [] => (Good tt, p)
    | name =>
        match c_complete name (c_hs p) (c_counters p) (c_files p) with
        | (Good files, hs) => (Good tt, mkC (c_core p) files [] (c_counters p) hs)
        | (Bad x, hs) => (Bad x, mkC (c_core p) (c_files p) (c_old p) (c_counters p) hs)
        end
    end.
End Handlers.

Section Parser.
  Context {R : Type} (rd : nat -> R -> res str * R) (exh : R -> res unit * R).
  Context (reg : registry) (name2cp : str -> option N).
  Context (st : mset) (D : str) (fuel : nat).
  Context {S F X : Type} (O : ops S F X) (truthy : F -> bool).

  Notation P1 := (chunkiter R).
  Notation L1 := (lstream P1).
  Notation L2 := (lstream (biter P1)).
  Notation pn1 := (ci_next rd).
  Notation pn2 := (bi_next pn1 fuel).

  (** lines 253-283 *)
  Fixpoint c_file_loop (n : nat) (b64 : bool) (hs : list S) (cs : list nat) (s : L2)
    : (cr unit * (list S * list nat)) * L2 :=
    match n with
    | 0 => ((Bad (CExn OutOfFuel), (hs, cs)), s)
    | Datatypes.S n' =>
        match ls_next pn2 s with
        | (Stop, s1) => ((Good tt, (hs, cs)), s1)
        | (Raise e, s1) => ((Bad (CExn e), (hs, cs)), s1)
        | (Chunk c, s1) =>
            match (if b64 then
                     match b64_fill rd fuel fuel (remove_ws c) s1 with
                     | (Err e, s2) => (Err e, s2)
                     | (Ok g, s2) => (match b64decode g with Ok d => Ok d | Err _ => Err TypeError end, s2)
                     end
                   else (Ok c, s1)) with
            | (Err e, s2) => ((Bad (CExn e), (hs, cs)), s2)
            | (Ok d, s2) =>
                match c_feed O d hs cs with
                | (Bad x, hc) => ((Bad x, hc), s2)
                | (Good _, hc) => c_file_loop n' b64 (fst hc) (snd hc) s2
                end
            end
        end
    end.

  (** a file for the handlers: lines 239-292 *)
  Definition c_deliver (i : finfo) (len : option Z) (b64 : bool) (p : cst S F) (s : L2) : (cr unit * cst S F) * L2 :=
    let set hs cs := mkC (c_core p) (c_files p) [] cs hs in
    let skip hs cs s1 :=                                                              (* 286-289 *)
      match c_close O hs with
      | (Bad x, hs1) => ((Bad x, set hs1 cs), s1)
      | (Good _, hs1) => match ls_drain pn2 fuel s1 with
                         | (Err e, s2) => ((Bad (CExn e), set hs1 cs), s2)
                         | (Ok _, s2) => ((Good tt, set hs1 cs), s2)
                         end
      end in
    let cs0 := map (fun _ => 0) (c_hs p) in                                           (* 239 *)
    match c_new O i len (c_hs p) with                                                 (* 241-251 *)
    | (Bad CSkip, hs) => skip hs cs0 s
    | (Bad x, hs) => ((Bad x, set hs cs0), s)
    | (Good _, hs) =>
        match c_file_loop fuel b64 hs cs0 s with
        | ((Bad CSkip, (hs, cs)), s1) => skip hs cs s1
        | ((Bad x, (hs, cs)), s1) => ((Bad x, set hs cs), s1)
        | ((Good _, (hs, cs)), s1) => ((Good tt, mkC (c_core p) (c_files p) (fi_field i) cs hs), s1)   (* 292 *)
        end
    end.

  Definition c_read_file (name : str) (tenc : option str) (disp : dict pystr) (m : pmeta) (p : cst S F) (s : L2)
    : (cr unit * cst S F) * L2 :=
    match (match dget !"filename" disp with                                           (* 223-226 *)
           | Some f => if pnonempty f
                       then let* f := to_native f in
                            let* f := unescape_entities name2cp f in Ok (ie_sanitize f)
                       else Ok []
           | None => Ok []
           end) with
    | Err e => ((Bad (CExn e), p), s)
    | Ok [] => ((Good tt, p), s)                                                      (* 227-228 *)
    | Ok file_name =>
        let (ct, extra) := match dget !"content-type" m with
                           | Some v => v
                           | None => ([], [])
                           end in
        let len := match dget !"content-length" m with
                   | Some v => py_int 10 (fst v)
                   | None => None
                   end in                                                             (* 234-237 *)
        c_deliver (mkInfo name file_name (ustrip ct) (dget !"charset" extra) extra tenc) len
                  (match tenc with Some t => seqb t !"base64" | None => false end) p s
    end.

  Definition c_part (ty : ptype) (m : pmeta) (p : cst S F) (s : L2) : (cr unit * cst S F) * L2 :=
    match dget CDISP m with
    | None => ((Good tt, p), s)
    | Some (_, disp) =>
        match dget !"name" disp with
        | None => ((Good tt, p), s)
        | Some raw =>
            let tenc := option_map (fun v => ustrip (fst v)) (dget !"content-transfer-encoding" m) in
            match to_native (pstrip raw) with
            | Err e => ((Bad (CExn e), p), s)
            | Ok name =>
                match ty with
                | FIELD => match read_field rd reg st fuel name tenc m (c_core p) s with
                           | (Ok core, s1) => ((Good tt, mkC core (c_files p) (c_old p) (c_counters p) (c_hs p)), s1)
                           | (Err e, s1) => ((Bad (CExn e), p), s1)
                           end
                | FILE => c_read_file name tenc disp m p s
                | RAW => ((Good tt, p), s)
                end
            end
        end
    end.

  Fixpoint c_loop (n : nat) (p : cst S F) (s : L1) : (cr unit * cst S F) * L1 :=
    match n with
    | 0 => ((Bad (CExn OutOfFuel), p), s)
    | Datatypes.S n' =>
        match bi_init pn1 fuel s D with
        | (Err InputStreamExhausted, s1) => ((Good tt, p), s1)
        | (Err e, s1) => ((Bad (CExn e), p), s1)
        | (Ok b, s1) =>
            match parse_boundary_stream rd reg fuel (ls_init b None) with
            | (Err e, s2) => ((Bad (CExn e), p), outer_of s1 s2)
            | (Ok (ty, m), s2) =>
                match c_finish O truthy p with
                | (Bad x, p1) => ((Bad x, p1), outer_of s1 s2)
                | (Good _, p1) =>
                    match c_part ty m p1 s2 with
                    | ((Bad x, p2), s3) => ((Bad x, p2), outer_of s1 s3)
                    | ((Good _, p2), s3) => c_loop n' p2 (outer_of s1 s3)
                    end
                end
            end
        end
    end.

  (** what [parse] returns: the result of a handle_raw_input, or POST and FILES *)
  Inductive outcome := Handled (x : X) | Parsed (post : dict (list entry)) (files : dict (list F)).
  Definition core0 : pst := mkP [] [] [] [] [] 0 0.

  (** lines 297-316 *)
  Definition c_return (p : cst S F) (hs : list S) (r : R) : cr outcome * list S * R :=
    match c_end O hs with                                                             (* 314 *)
    | (Bad x, hs1) => (Bad x, hs1, r)
    | (Good _, hs1) => (Good (Parsed (p_post (c_core p)) (c_files p)), hs1, r)
    end.
  Definition c_parse (content_length : Z) (csize : nat) (hs : list S) (r : R) : cr outcome * list S * R :=
    let qd := querydict reg (Some (ms_query st)) None true in
    if Z.eqb content_length 0
    then match qd with                                                                (* 109-110 *)
         | Err e => (Bad (CExn e), hs, r)
         | Ok _ => (Good (Parsed [] []), hs, r)
         end
    else
      match c_raw O content_length hs with                                            (* 114-129 *)
      | (Bad x, hs1) => (Bad x, hs1, r)
      | (Good (Some x), hs1) => (Good (Handled x), hs1, r)
      | (Good None, hs1) =>
          match qd with                                                               (* 132 *)
          | Err e => (Bad (CExn e), hs1, r)
          | Ok _ =>
              let p := mkC core0 [] [] (map (fun _ => 0) hs1) hs1 in
              match c_loop fuel p (ls_init (mkCI r csize) None) with
              | ((Good _, p1), s) =>
                  match exh (input_of r s) with                                       (* 308 *)
                  | (Err e, r1) => (Bad (CExn e), c_hs p1, r1)
                  | (Ok _, r1) => c_return p1 (c_hs p1) r1
                  end
              | ((Bad (CStop reset), p1), s) =>                                       (* 302-305 *)
                  match c_close O (c_hs p1) with
                  | (Bad x, hs2) => (Bad x, hs2, input_of r s)
                  | (Good _, hs2) =>
                      if reset then c_return p1 hs2 (input_of r s)
                      else match exh (input_of r s) with
                           | (Err e, r1) => (Bad (CExn e), hs2, r1)
                           | (Ok _, r1) => c_return p1 hs2 r1
                           end
                  end
              | ((Bad x, p1), s) => (Bad x, c_hs p1, input_of r s)
              end
          end
      end.
End Parser.

(** ** Handlers that read from [input_data] in handle_raw_input, lines 114-129: [raw len h r] is what it
    returns, the handler and the input afterwards.  The other methods are those of [O]; they do not get
    the input. *)
Section RawInput.
  Context {S F X R : Type} (raw : Z -> S -> R -> cr (option X) * S * R).
  Fixpoint c_rawin (len : Z) (hs : list S) (r : R) : cr (option X) * list S * R :=
    match hs with
    | [] => (Good None, [], r)
    | h :: hs' =>
        match raw len h r with
        | (Good None, h1, r1) => let '(q, hs1, r2) := c_rawin len hs' r1 in (q, h1 :: hs1, r2)
        | (q, h1, r1) => (q, h1 :: hs', r1)
        end
    end.
  (** the handlers, once nobody has taken over *)
  Definition passed (O : ops S F X) : ops S F X :=
    mkOps S F X (fun _ h => (Good None, h)) (o_new O) (o_data O) (o_done O) (o_close O) (o_end O).
  (** [MultiPartParser.parse], lines 95-316 *)
  Definition c_parse_in (rd : nat -> R -> res str * R) (exh : R -> res unit * R) (reg : registry) (name2cp : str -> option N) (st : mset) (D : str)
    (fuel : nat) (O : ops S F X) (truthy : F -> bool) (len : Z) (csize : nat) (hs : list S) (r : R) : cr (outcome (F := F) (X := X)) * list S * R :=
    if Z.eqb len 0 then c_parse rd exh reg name2cp st D fuel O truthy len csize hs r        (* 109-110 *)
    else
      match c_rawin len hs r with                                                            (* 114-129 *)
      | (Bad x, hs1, r1) => (Bad x, hs1, r1)
      | (Good (Some x), hs1, r1) => (Good (Handled x), hs1, r1)
      | (Good None, hs1, r1) => c_parse rd exh reg name2cp st D fuel (passed O) truthy len csize hs1 r1
      end.
End RawInput.
