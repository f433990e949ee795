(** * Model of what a File says about the file behind it
    (request_parser/files/utils.py:27-49, request_parser/files/base.py:10-45,
    request_parser/files/uploadedfile.py:20-32)

    Python 2.7: [io.BytesIO] has [readable], [writable], [seekable] and neither [name]
    nor [size]; the built-in [file], and a NamedTemporaryFile around it, has [name] and
    [mode] and none of these methods. *)
From Verif Require Import Py PyDict.

(** the object in the attribute [file] *)
Inductive fraw :=
| RNone                                                     (* None *)
| RBytesIO (data : str) (pos : nat) (closed : bool)
| RFile (name mode : str) (data pending : str) (pos : nat) (closed : bool)
    (* [data]: what this file has on the disk; [pending]: written behind it and not flushed *)
| RPlain (f : fraw)                                         (* a File around [f] *)
| RUploaded (size : option Z) (f : fraw).                   (* an UploadedFile; its attribute [size], an int or None *)

(** what [size()] may return *)
Inductive sizev := SInt (z : Z) | SNone | SMethod.

(** [File(f).size()]  base.py:31-45; [fs]: the names and contents on the disk.  For a plain
    File inside, the attribute [size] is its method (line 33) *)
Definition file_size (fs : dict str) (f : fraw) : res sizev * fraw :=
  match f with
  | RUploaded (Some z) _ => (Ok (SInt z), f)                                 (* 32-33 *)
  | RUploaded None _ => (Ok SNone, f)
  | RPlain _ => (Ok SMethod, f)
  | RFile name mode data pending pos closed =>
      match dget name fs with
      | Some c => (Ok (SInt (Z.of_nat (length c))), f)                       (* 34-36 *)
      | None =>                                                              (* 37-38 *)
          if closed then (Err ValueError, f)
          else (Ok (SInt (Z.of_nat (length (data ++ pending)))),             (* 40-43; seek flushes *)
                RFile name mode (data ++ pending) [] pos closed)
      end
  | RBytesIO data pos closed =>
      if closed then (Err ValueError, f) else (Ok (SInt (Z.of_nat (length data))), f)   (* 39-44 *)
  | RNone => (Err AttributeError, f)                                         (* 45 *)
  end.

(** [bool(f)] in Python 2: of a File it is [len(f) != 0], and [len] of a plain File is a
    TypeError (base.py:27-28) *)
Definition raw_truth (f : fraw) : res bool :=
  match f with
  | RNone => Ok false
  | RPlain _ | RUploaded None _ => Err TypeError
  | RUploaded (Some z) _ => if Z.ltb z 0 then Err ValueError else Ok (negb (Z.eqb z 0))
  | _ => Ok true
  end.
(** [File(f).closed]  utils.py:29-31 *)
Fixpoint file_closed (f : fraw) : res bool :=
  let* t := raw_truth f in
  if negb t then Ok true
  else match f with
       | RBytesIO _ _ c | RFile _ _ _ _ _ c => Ok c
       | RPlain g | RUploaded _ g => file_closed g
       | RNone => Ok true
       end.

(** [readable], [writable], [seekable]  utils.py:33-49 *)
Fixpoint file_readable (f : fraw) : res bool :=
  let* c := file_closed f in
  if c then Ok false
  else match f with
       | RPlain g | RUploaded _ g => file_readable g
       | _ => Ok true
       end.
Fixpoint file_writable (f : fraw) : res bool :=
  let* c := file_closed f in
  if c then Ok false
  else match f with
       | RPlain g | RUploaded _ g => file_writable g
       | RFile _ mode _ _ _ _ => Ok (mem 119%N mode)
       | _ => Ok true
       end.
Fixpoint file_seekable (f : fraw) : res bool :=
  let* c := file_closed f in
  if c then Ok false
  else match f with
       | RPlain g | RUploaded _ g => file_seekable g
       | _ => Ok true
       end.

(** [repr(File(f))]  base.py:21-22: [self or "None"] asks for the truth value of a plain File *)
Definition file_repr (name : str) (f : fraw) : res str :=
  let* t := raw_truth (RPlain f) in
  Ok (!"<File: " ++ (if t then name else !"None") ++ !">").
(** [repr(u)] of an uploaded file  uploadedfile.py:31-32, for byte strings; [cls]: the name of its class *)
Definition upload_repr (cls name ctype : str) : str := !"<" ++ cls ++ !": " ++ name ++ !" (" ++ ctype ++ !")>".
