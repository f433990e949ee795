(** * Model of request_parser/conf/settings.py

    A settings object is the dictionary of its instance attributes.  The file
    system ([_check_upload_dir], lines 117-149) is a parameter [fs]: given the
    directory and the flag [check_presence] it returns the directory to use or
    raises ([InvalidDirectory] or [OSError]; [IOError] stands for either). *)
From Verif Require Import Py PyDict.

(** values of options *)
Inductive sval := SvInt (z : Z) | SvStr (s : str) | SvNone.

Definition fs_check := sval -> bool -> res sval.

(** the argument of [Settings()]: absent, not a dictionary, or a dictionary *)
Inductive sarg := SaNone | SaOther | SaDict (d : dict sval).

(** attribute names *)
Definition A_DIR : str := !"FILE_UPLOAD_TEMP_DIR".
Definition A_HDR : str := !"MAX_HEADER_SIZE".
Definition A_FMEM : str := !"FILE_UPLOAD_MAX_MEMORY_SIZE".
Definition A_DMEM : str := !"DATA_UPLOAD_MAX_MEMORY_SIZE".
Definition A_DNUM : str := !"DATA_UPLOAD_MAX_NUMBER_FIELDS".
Definition A_CHARSET : str := !"DEFAULT_CHARSET".

(** Settings.Key, lines 17-26 *)
Definition K_DIR : str := !"FILE_UPLOAD_TEMP_DIR".
Definition K_HDR : str := !"MAX_HEADER_SIZE".
Definition K_FMEM : str := !"FILE_UPLOAD_MAX_MEMORY".
Definition K_DMEM : str := !"DATA_UPLOAD_MAX_MEMORY".
Definition K_DNUM : str := !"DATA_UPLOAD_MAX_FIELDS".
Definition K_CHARSET : str := !"DEFAULT_CHARSET".

(** attribute access on a settings object *)
Definition s_attr (a : str) (s : dict sval) : res sval :=
  match dget a s with Some v => Ok v | None => Err AttributeError end.

(** [Settings.default]: lines 85-115 *)
Definition settings_default (fs : fs_check) (check : bool) : res (dict sval) :=
  let s := [] in                                                             (* 87, 43-44 *)
  let s := dset A_DIR (SvStr !"files/file_uploads") s in                     (* 91 *)
  let s := dset A_HDR (SvInt 16) s in                                        (* 94 *)
  let s := dset A_FMEM (SvInt (30 * (2 ^ 10 * 2 ^ 10))) s in                 (* 99 *)
  let s := dset A_DMEM (SvInt (5 * (2 ^ 10 * 2 ^ 10))) s in                  (* 104 *)
  let s := dset A_DNUM (SvInt 4096) s in                                     (* 108 *)
  let s := dset A_CHARSET (SvStr !"ISO-8859-1") s in                         (* 111 *)
  let* d := s_attr A_DIR s in
  let* d := fs d check in                                                    (* 113 *)
  Ok (dset A_DIR d s).

(** one [if key in settings_dict: ... else: ...] of lines 56-83 *)
Definition s_option (key attr : str) (d dflt s : dict sval) : res (dict sval) :=
  match dget key d with
  | Some v => Ok (dset attr v s)
  | None => let* v := s_attr attr dflt in Ok (dset attr v s)
  end.

(** [Settings.__init__]: lines 42-83 *)
Definition settings_init (fs : fs_check) (a : sarg) (check : bool) : res (dict sval) :=
  match a with
  | SaNone | SaOther | SaDict [] => Ok []                                    (* 43-44 *)
  | SaDict d =>
      let* dflt := settings_default fs check in                              (* 46 *)
      let* s := match dget K_DIR d with                                      (* 49-53 *)
                | Some v => let* v' := fs v true in Ok (dset A_DIR v' (dset A_DIR v []))
                | None => s_option K_DIR A_DIR [] dflt []
                end in
      let* s := s_option K_HDR A_HDR d dflt s in
      let* s := s_option K_FMEM A_FMEM d dflt s in
      let* s := s_option K_DMEM A_DMEM d dflt s in
      let* s := s_option K_DNUM A_DNUM d dflt s in
      s_option K_CHARSET A_CHARSET d dflt s
  end.
