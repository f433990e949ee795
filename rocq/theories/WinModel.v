(** * Model of temporary files under Windows (request_parser/files/temp.py:28-66) and of
    the uploaded files that use them (request_parser/files/uploadedfile.py:53-76,
    request_parser/files/base.py:108-118, HttpRequest.close)

    The disk is a flat map from names to contents, as in LifeModel.v.  What the operating
    system does is arbitrary: [cfail p] is the exception of closing the file called [p],
    if there is one (the file is closed nevertheless, as in CPython); [locked p] says that
    [p] may not be removed, for example because another process has it open. *)
From Verif Require Import Py PyDict LifeModel.

(** [TemporaryFile]: the attributes [name] and [close_called], and whether [self.file] is open *)
Record tfile := mkTF { tf_name : str; tf_called : bool; tf_open : bool }.

(** [self.file.close()]: closing a closed file does nothing *)
Definition file_close (cfail : str -> option lerr) (t : tfile) : lres unit * tfile :=
  let t' := mkTF (tf_name t) (tf_called t) false in
  if tf_open t then match cfail (tf_name t) with Some e => (LErr e, t') | None => (LOk tt, t') end
  else (LOk tt, t').
(** [os.unlink]: WindowsError is an OSError *)
Definition unlink (locked : str -> bool) (p : str) (d : disk) : lres unit * disk :=
  if dmem p d && negb (locked p) then (LOk tt, ddel p d) else (LErr LOSError, d).

(** [TemporaryFile.close]  temp.py:45-55 *)
Definition win_close (cfail : str -> option lerr) (locked : str -> bool) (d : disk) (t : tfile)
  : lres unit * (disk * tfile) :=
  if tf_called t then (LOk tt, (d, t))                                       (* 46 *)
  else
    let t1 := mkTF (tf_name t) true (tf_open t) in                           (* 47 *)
    let remove t2 :=
      match unlink locked (tf_name t2) d with                                (* 52-55 *)
      | (LOk _, d2) => (LOk tt, (d2, t2))
      | (LErr LOSError, d2) => (LOk tt, (d2, t2))
      | (LErr e, d2) => (LErr e, (d2, t2))
      end in
    match file_close cfail t1 with                                           (* 48-51 *)
    | (LOk _, t2) => remove t2
    | (LErr LOSError, t2) | (LErr LIOError, t2) => remove t2
    | (LErr e, t2) => (LErr e, (d, t2))
    end.
(** [__del__]  temp.py:57-58 *)
Definition win_del := win_close.
(** [__exit__]  temp.py:64-65: that of [self.file], which closes it *)
Definition win_exit (cfail : str -> option lerr) (t : tfile) : lres unit * tfile := file_close cfail t.

(** an uploaded file under Windows; [wu_name]: the name given by the client *)
Inductive winner := WMem (content : str) (closed : bool) | WTemp (t : tfile).
Record wupload := mkWU { wu_name : str; wu_file : winner }.

(** [TemporaryUploadedFile.close]  uploadedfile.py:69-76, [File.close]  base.py:117-118 *)
Definition wu_close (cfail : str -> option lerr) (locked : str -> bool) (d : disk) (u : wupload)
  : lres unit * (disk * wupload) :=
  match wu_file u with
  | WMem c _ => (LOk tt, (d, mkWU (wu_name u) (WMem c true)))
  | WTemp t =>
      match win_close cfail locked d t with
      | (LErr LIOError, (d1, t1)) => (LOk tt, (d1, mkWU (wu_name u) (WTemp t1)))
      | (r, (d1, t1)) => (r, (d1, mkWU (wu_name u) (WTemp t1)))
      end
  end.
(** the files of all fields in order: [HttpRequest.close]  request.py:556-559 *)
Fixpoint wu_close_all (cfail : str -> option lerr) (locked : str -> bool) (d : disk) (us : list wupload)
  : lres unit * (disk * list wupload) :=
  match us with
  | [] => (LOk tt, (d, []))
  | u :: r =>
      match wu_close cfail locked d u with
      | (LOk _, (d1, u1)) => let '(x, (d2, r2)) := wu_close_all cfail locked d1 r in (x, (d2, u1 :: r2))
      | (LErr e, (d1, u1)) => (LErr e, (d1, u1 :: r))
      end
  end.

(** [open()] without a mode, of a temporary uploaded file  base.py:108-115.  TemporaryFile
    has no attribute [mode], so File.__init__ sets none (base.py:15-16), and [self.mode] is
    an AttributeError, which comes before the call of [open] *)
Inductive wopen := WRewound | WValueError | WAttributeError.
Definition wt_open (d : disk) (name : str) (t : tfile) : wopen :=
  if tf_open t then WRewound                                                 (* 109-110 *)
  else match name with
       | [] => WValueError
       | _ => if dmem name d then WAttributeError else WValueError           (* 111-114 *)
       end.
