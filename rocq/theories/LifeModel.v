(** * Model of closing and reopening uploaded files
    (request_parser/files/base.py, request_parser/files/uploadedfile.py,
    HttpRequest.close)

    The world is the file system, one flat map from path to content, and the
    state of the uploaded file objects.  A temporary file is a
    [tempfile.NamedTemporaryFile], which removes its file when it is closed. *)
From Verif Require Import Py PyDict.

(** the Python file inside an uploaded file *)
Inductive ofile :=
| OMem (content : str)          (* io.BytesIO *)
| OTemp (path : str)            (* the wrapper of tempfile; the content is on the disk *)
| ODisk (path : str).           (* a file opened by name *)
(** [lf_name]: the name given by the client; [lf_closed]: the inner file is closed *)
Record lfile := mkLF { lf_name : str; lf_file : ofile; lf_closed : bool }.
Definition disk := dict str.

(** exceptions: OSError is not an IOError in Python 2 *)
Inductive lerr := LOSError | LIOError | LValueError.
Inductive lres (A : Type) := LOk (a : A) | LErr (e : lerr).
Arguments LOk {A}. Arguments LErr {A}.

(** [close] of the inner file.  For the temporary file, from CPython 2.7's
    tempfile.py: nothing the second time; otherwise the file is closed and then
    removed by its name, which is an OSError when it is not there any more *)
Definition inner_close (d : disk) (f : lfile) : lres unit * (disk * lfile) :=
  let f' := mkLF (lf_name f) (lf_file f) true in
  match lf_file f with
  | OTemp p =>
      if lf_closed f then (LOk tt, (d, f))
      else if dmem p d then (LOk tt, (ddel p d, f')) else (LErr LOSError, (d, f'))
  | _ => (LOk tt, (d, f'))
  end.

(** [TemporaryUploadedFile.close]  uploadedfile.py:69-76 (an IOError is
    swallowed), [File.close]  base.py:117-118 *)
Definition u_close (d : disk) (f : lfile) : lres unit * (disk * lfile) :=
  match lf_file f with
  | OTemp _ => match inner_close d f with
               | (LErr LIOError, w) => (LOk tt, w)
               | r => r
               end
  | _ => inner_close d f
  end.

(** the files of [FILES], by field: [HttpRequest.close]  request.py:556-559;
    [None]: there is no attribute [_files] *)
Fixpoint close_list (d : disk) (l : list lfile) : lres unit * (disk * list lfile) :=
  match l with
  | [] => (LOk tt, (d, []))
  | f :: r =>
      match u_close d f with
      | (LOk _, (d1, f1)) => let '(x, (d2, r2)) := close_list d1 r in (x, (d2, f1 :: r2))
      | (LErr e, (d1, f1)) => (LErr e, (d1, f1 :: r))
      end
  end.
Fixpoint close_fields (d : disk) (fs : list (str * list lfile)) : lres unit * (disk * list (str * list lfile)) :=
  match fs with
  | [] => (LOk tt, (d, []))
  | (k, l) :: r =>
      match close_list d l with
      | (LOk _, (d1, l1)) => let '(x, (d2, r2)) := close_fields d1 r in (x, (d2, (k, l1) :: r2))
      | (LErr e, (d1, l1)) => (LErr e, (d1, (k, l1) :: r))
      end
  end.
Definition request_close (d : disk) (files : option (list (str * list lfile)))
  : lres unit * (disk * option (list (str * list lfile))) :=
  match files with
  | None => (LOk tt, (d, None))
  | Some fs => let '(x, (d1, fs1)) := close_fields d fs in (x, (d1, Some fs1))
  end.

(** [open()] without a mode.  [InMemoryUploadedFile.open]  uploadedfile.py:86-88:
    [seek] on a closed BytesIO is a ValueError.  [File.open]  base.py:108-115:
    the closed file is reopened by [self.name], the name given by the client,
    in the working directory, with the mode of the temporary file, "w+b", which
    empties an existing file *)
Definition u_open (d : disk) (f : lfile) : lres unit * (disk * lfile) :=
  match lf_file f with
  | OMem _ => if lf_closed f then (LErr LValueError, (d, f)) else (LOk tt, (d, f))
  | _ =>
      if negb (lf_closed f) then (LOk tt, (d, f))                            (* 109-110 *)
      else match lf_name f with
           | [] => (LErr LValueError, (d, f))                                (* 113-114 *)
           | _ => if dmem (lf_name f) d                                      (* 111 *)
                  then (LOk tt, (dset (lf_name f) [] d, mkLF (lf_name f) (ODisk (lf_name f)) false))   (* 112 *)
                  else (LErr LValueError, (d, f))
           end
  end.

(** what reading the whole file gives, [None] when it is closed *)
Definition u_content (d : disk) (f : lfile) : option str :=
  if lf_closed f then None
  else match lf_file f with
       | OMem c => Some c
       | OTemp p | ODisk p => dget p d
       end.
