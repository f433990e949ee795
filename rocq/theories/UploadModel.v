(** * Model of the upload handlers and uploaded files:
    request_parser/files/uploadhandler.py and request_parser/files/uploadedfile.py *)
From Verif Require Import Py PyDict CodecModel.

(** ** Paths (posixpath) *)
Definition psep : N := 47%N.
Definition pdot : N := 46%N.
(** [os.path.basename] *)
Definition basename (p : str) : str :=
  match rfindc psep p with Some i => skipn (S i) p | None => p end.
(** [os.path.splitext]: the last dot after the last separator, unless only dots
    precede it in the last component *)
Definition splitext (p : str) : str * str :=
  let start := match rfindc psep p with Some i => S i | None => 0 end in
  match rfindc pdot p with
  | Some d =>
      if Nat.leb start d && negb (forallb (N.eqb pdot) (slice start d p))
      then (firstn d p, skipn d p) else (p, [])
  | None => (p, [])
  end.

(** [UploadedFile._set_name]  uploadedfile.py:37-49 *)
Definition set_name (name : str) : str :=
  let name := basename name in
  if Nat.ltb 255 (length name)
  then let (n, ext) := splitext name in
       let ext := firstn 255 ext in
       firstn (255 - length ext) n ++ ext
  else name.

(** the suffix of the temporary file  uploadedfile.py:58, 62 *)
Definition temp_suffix (name : str) : str := !".upload" ++ snd (splitext name).

(** what the parser passes to [new_file] and the file object keeps *)
Record finfo := mkInfo {
  fi_field : str; fi_name : str; fi_ctype : str; fi_charset : option pystr;
  fi_extra : dict pystr; fi_tenc : option str }.

(** uploaded files; the file object is represented by its content, positioned at 0 *)
Inductive ufkind := InMemory (field : str) | Temporary (suffix : str).
Record ufile := mkUF {
  uf_kind : ufkind; uf_name : str; uf_content : str; uf_size : nat;
  uf_ctype : str; uf_charset : option pystr; uf_extra : dict pystr; uf_tenc : option str }.

(** ** Handlers.
    [mh_activated = None]: [handle_raw_input] was not called (AttributeError when read).
    [mh_file], [th_file]: the content written so far; [None] before [new_file]. *)
Record memh := mkMem { mh_activated : option bool; mh_info : option finfo; mh_file : option str }.
Record temph := mkTemp { th_info : option finfo; th_file : option str }.
Inductive inner := IMem (m : memh) | ITemp (t : temph).
Record convh := mkConv { cv_inner : inner; cv_received : nat; cv_switched : bool }.
Inductive handler := HMem (m : memh) | HTemp (t : temph) | HConv (c : convh).

Definition new_mem : memh := mkMem None None None.
Definition new_temp : temph := mkTemp None None.
Definition new_conv : convh := mkConv (IMem new_mem) 0 false.                 (* 208-212 *)

(** [len <= FILE_UPLOAD_MAX_MEMORY_SIZE]; in Python 2 no integer is <= None *)
Definition le_max (n : Z) (m : option Z) : bool :=
  match m with Some m => Z.leb n m | None => false end.

Section Handlers.
  (** [mk_temp suffix]: does creating a temporary file succeed? *)
  Context (mk_temp : str -> res unit) (max : option Z).

  (** [MemoryFileUploadHandler]  153-195 *)
  Definition mem_raw_input (content_length : Z) (m : memh) : memh :=          (* 165 *)
    mkMem (Some (le_max content_length max)) (mh_info m) (mh_file m).
  Definition mem_new_file (i : finfo) (m : memh) : res unit * memh :=         (* 167-171 *)
    match mh_activated m with
    | None => (Err AttributeError, mkMem None (Some i) (mh_file m))
    | Some true => (Err StopFutureHandlers, mkMem (Some true) (Some i) (Some []))
    | Some false => (Ok tt, mkMem (Some false) (Some i) (mh_file m))
    end.
  (** the result is [None] or the data for the next handler *)
  Definition mem_receive (data : str) (m : memh) : res (option str) * memh := (* 173-178 *)
    match mh_activated m with
    | None => (Err AttributeError, m)
    | Some false => (Ok (Some data), m)
    | Some true => match mh_file m with
                   | None => (Err AttributeError, m)
                   | Some f => (Ok None, mkMem (mh_activated m) (mh_info m) (Some (f ++ data)))
                   end
    end.
  Definition mem_complete (size : nat) (m : memh) : res (option ufile) :=     (* 180-195 *)
    match mh_activated m with
    | None => Err AttributeError
    | Some false => Ok None
    | Some true => match mh_file m, mh_info m with
                   | Some f, Some i =>
                       Ok (Some (mkUF (InMemory (fi_field i)) (set_name (fi_name i)) f size (fi_ctype i)
                                      (fi_charset i) (fi_extra i) (fi_tenc i)))
                   | _, _ => Err AttributeError
                   end
    end.

  (** [TemporaryFileUploadHandler]  125-151 *)
  Definition temp_new_file (i : finfo) (t : temph) : res unit * temph :=      (* 138-143 *)
    match mk_temp (temp_suffix (fi_name i)) with
    | Ok _ => (Ok tt, mkTemp (Some i) (Some []))
    | Err e => (Err e, mkTemp (Some i) (th_file t))
    end.
  Definition temp_receive (data : str) (t : temph) : res (option str) * temph := (* 145-146 *)
    match th_file t with
    | None => (Err AttributeError, t)
    | Some f => (Ok None, mkTemp (th_info t) (Some (f ++ data)))
    end.
  Definition temp_complete (size : nat) (t : temph) : res (option ufile) :=   (* 148-151 *)
    match th_file t, th_info t with
    | Some f, Some i =>
        Ok (Some (mkUF (Temporary (temp_suffix (fi_name i))) (set_name (fi_name i)) f size (fi_ctype i)
                       (fi_charset i) (fi_extra i) (fi_tenc i)))
    | _, _ => Err AttributeError
    end.

  (** [ConvenientFileUploadHandler]  197-263 *)
  Definition conv_raw_input (c : convh) : convh :=                            (* 214-219 *)
    mkConv (match cv_inner c with IMem m => IMem (mem_raw_input 0 m) | ITemp t => ITemp t end)
           (cv_received c) (cv_switched c).
  Definition inner_new_file (i : finfo) (h : inner) : res unit * inner :=
    match h with
    | IMem m => let (r, m) := mem_new_file i m in (r, IMem m)
    | ITemp t => let (r, t) := temp_new_file i t in (r, ITemp t)
    end.
  Definition inner_receive (data : str) (h : inner) : res (option str) * inner :=
    match h with
    | IMem m => let (r, m) := mem_receive data m in (r, IMem m)
    | ITemp t => let (r, t) := temp_receive data t in (r, ITemp t)
    end.
  Definition inner_complete (size : nat) (h : inner) : res (option ufile) :=
    match h with IMem m => mem_complete size m | ITemp t => temp_complete size t end.
  Definition inner_info (h : inner) : option finfo :=
    match h with IMem m => mh_info m | ITemp t => th_info t end.

  Definition conv_new_file (i : finfo) (c : convh) : res unit * convh :=      (* 221-222 *)
    let (r, h) := inner_new_file i (cv_inner c) in (r, mkConv h (cv_received c) (cv_switched c)).

  (** lines 228-252: moving to a temporary file *)
  Definition conv_switch (c : convh) : res convh :=
    let* f := inner_complete (cv_received c) (cv_inner c) in                  (* 232 *)
    match f with
    | None => Err AttributeError                                              (* 233: None.read() *)
    | Some f =>
        match inner_info (cv_inner c) with
        | None => Err AttributeError
        | Some i =>
            match temp_new_file i new_temp with                               (* 237-243 *)
            | (Err e, _) => Err e
            | (Ok _, t) => match temp_receive (uf_content f) t with           (* 246 *)
                           | (Err e, _) => Err e
                           | (Ok _, t) => Ok (mkConv (ITemp t) (cv_received c) true)   (* 249-252 *)
                           end
            end
        end
    end.
  Definition conv_receive (data : str) (c : convh) : res (option str) * convh :=   (* 224-257 *)
    let need := negb (cv_switched c) && negb (le_max (Z.of_nat (cv_received c + length data)) max) in
    match (if need then conv_switch c else Ok c) with
    | Err e => (Err e, c)
    | Ok c =>
        match inner_receive data (cv_inner c) with                            (* 255 *)
        | (Err e, h) => (Err e, mkConv h (cv_received c) (cv_switched c))
        | (Ok _, h) => (Ok None, mkConv h (cv_received c + length data) (cv_switched c))  (* 257 *)
        end
    end.

  (** ** Dispatch *)
  Definition h_raw_input (content_length : Z) (h : handler) : handler :=
    match h with
    | HMem m => HMem (mem_raw_input content_length m)
    | HTemp t => HTemp t
    | HConv c => HConv (conv_raw_input c)
    end.
  Definition h_new_file (i : finfo) (h : handler) : res unit * handler :=
    match h with
    | HMem m => let (r, m) := mem_new_file i m in (r, HMem m)
    | HTemp t => let (r, t) := temp_new_file i t in (r, HTemp t)
    | HConv c => let (r, c) := conv_new_file i c in (r, HConv c)
    end.
  Definition h_receive (data : str) (h : handler) : res (option str) * handler :=
    match h with
    | HMem m => let (r, m) := mem_receive data m in (r, HMem m)
    | HTemp t => let (r, t) := temp_receive data t in (r, HTemp t)
    | HConv c => let (r, c) := conv_receive data c in (r, HConv c)
    end.
  Definition h_complete (size : nat) (h : handler) : res (option ufile) :=
    match h with
    | HMem m => mem_complete size m
    | HTemp t => temp_complete size t
    | HConv c => inner_complete size (cv_inner c)                             (* 259-260 *)
    end.
End Handlers.
