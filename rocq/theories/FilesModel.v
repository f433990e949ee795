(** * Model of the file classes as objects: size, truth value, multiple_chunks
    (request_parser/files/base.py, request_parser/files/uploadedfile.py) *)
From Verif Require Import Py PyDict FileModel UploadModel.

(** the class of a file object *)
Inductive fclass := CPlain | CMemory | CTemporary.
(** [f_size] is the attribute set by UploadedFile.__init__ (uploadedfile.py:25; None is Python's None);
    a plain File has none, there [size] is the method of base.py:31-45, the decorator
    [cached_property] being commented out *)
Record pfile := mkPF { f_class : fclass; f_size : option Z; f_name : str; f_ctype : str; f_obj : fileobj }.

(** [__len__]  base.py:27-28: [int] of a method or of None is a TypeError, and a negative length a ValueError *)
Definition f_len (f : pfile) : res Z :=
  match f_class f, f_size f with
  | CPlain, _ => Err TypeError
  | _, None => Err TypeError
  | _, Some z => if Z.ltb z 0 then Err ValueError else Ok z
  end.
(** [bool(f)]: Python 2 does not use [__bool__] (base.py:24-25) but [__len__] *)
Definition f_truth (f : pfile) : res bool := let* n := f_len f in Ok (negb (Z.eqb n 0)).

(** [chunks]  base.py:47-62, uploadedfile.py:90-92 *)
Definition f_chunks (n : option Z) (f : pfile) : list str :=
  match f_class f with
  | CMemory => fst (mem_chunks n (f_obj f))
  | _ => fst (file_chunks n (f_obj f))
  end.
(** [multiple_chunks]  base.py:64-72, uploadedfile.py:94-96: in Python 2 a method is greater
    than every integer and None is not *)
Definition f_multiple (n : option Z) (f : pfile) : bool :=
  match f_class f, f_size f with
  | CPlain, _ => true
  | CMemory, _ => false
  | CTemporary, None => false
  | CTemporary, Some z => Z.ltb (chunk_size_of n) z
  end.

(** [SimpleUploadedFile.__init__]  uploadedfile.py:102-104, for byte strings; [None]: Python's None *)
Definition simple_file (name : str) (content : option str) (ctype : str) : pfile :=
  let c := match content with Some c => c | None => [] end in
  mkPF CMemory (Some (Z.of_nat (length c))) (set_name name) ctype (mkFile c 0).
(** [SimpleUploadedFile.from_dict]  106-117, for a dictionary of byte strings *)
Definition simple_from_dict (d : dict str) : res pfile :=
  match dget !"filename" d with
  | None => Err KeyError
  | Some n => match dget !"content" d with
              | None => Err KeyError
              | Some c => Ok (simple_file n (Some c) (match dget !"content-type" d with Some t => t | None => !"text/plain" end))
              end
  end.

(** [ContentFile.__init__]  base.py:124-127: in Python 2 [super()] takes at least one argument
    (and a StringIO accepts no byte string) *)
Definition content_file (content : str) : res pfile := Err TypeError.

(** the file object the upload handlers make (uploadhandler.py:148-151, 180-195) *)
Definition of_upload (u : ufile) : pfile :=
  mkPF (match uf_kind u with InMemory _ => CMemory | Temporary _ => CTemporary end)
       (Some (Z.of_nat (uf_size u))) (uf_name u) (uf_ctype u) (mkFile (uf_content u) 0).
