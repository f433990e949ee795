(** * Model of how a file prints (request_parser/files/base.py:18-19,
    request_parser/files/uploadedfile.py:31-32)

    Python 2.7: what [__str__] and [__repr__] return is encoded as ASCII when it is unicode; a byte
    string that is formatted together with unicode is decoded as ASCII first. *)
From Verif Require Import Py PyDict CodecModel UploadModel ReprModel.

(** [str(f)]  base.py:18-19: [self.name or ''] *)
Definition print_str (name : option pystr) : res str :=
  to_native (match name with Some n => if pnonempty n then n else PB [] | None => PB [] end).

(** a value formatted by %s *)
Definition shown (v : option pystr) : pystr := match v with Some p => p | None => PB !"None" end.
Definition is_bytes (p : pystr) : bool := match p with PB _ => true | PU _ => false end.
(** a piece of a unicode text *)
Definition promote (p : pystr) : res str :=
  match p with PB s => if ascii_only s then Ok s else Err UnicodeDecodeError | PU u => Ok u end.
(** [repr(u)]  uploadedfile.py:31-32, for any name and type; [cls]: the name of the class *)
Definition print_repr (cls : str) (name ctype : option pystr) : res str :=
  let n := shown name in let c := shown ctype in
  if is_bytes n && is_bytes c then Ok (!"<" ++ cls ++ !": " ++ pchars n ++ !" (" ++ pchars c ++ !")>")
  else let* a := promote n in let* b := promote c in
       to_native (PU (!"<" ++ cls ++ !": " ++ a ++ !" (" ++ b ++ !")>")).

(** What FILES holds.  The name has gone through [force_text] and [unescape_entities], which call
    [str] (multipartparser.py:223-226, encoding.py:45-53, text.py:24-25): a byte string.  The type
    comes from [parse_header], which decodes it (multipartparser.py:578, 230-231): unicode, or the
    byte string '' when the part has no Content-Type line ([typed = false]). *)
Definition upload_name (f : ufile) : option pystr := Some (PB (uf_name f)).
Definition upload_type (typed : bool) (f : ufile) : option pystr := Some (if typed then PU (uf_ctype f) else PB (uf_ctype f)).

(** [repr(request.FILES)]  datastructures.py:34-35: the files are printed one after the other, the
    first exception is the exception of the whole; [typed]: the files with a Content-Type *)
Definition print_file (typed : ufile -> bool) (f : ufile) : res str :=
  print_repr (match uf_kind f with InMemory _ => !"InMemoryUploadedFile" | Temporary _ => !"TemporaryUploadedFile" end) (upload_name f) (upload_type (typed f) f).
Fixpoint print_all {A} (g : A -> res str) (l : list A) : res (list str) :=
  match l with [] => Ok [] | a :: r => let* x := g a in let* y := print_all g r in Ok (x :: y) end.
Definition print_item (typed : ufile -> bool) (i : str * list ufile) : res str :=
  let* fs := print_all (print_file typed) (snd i) in Ok (rpy (PB (fst i)) ++ !": " ++ !"[" ++ join !", " fs ++ !"]").
Definition print_files (typed : ufile -> bool) (d : dict (list ufile)) : res str :=
  let* l := print_all (print_item typed) d in Ok (!"<" ++ !"MultiValueDict" ++ !": " ++ (!"{" ++ join !", " l ++ !"}") ++ !">").
