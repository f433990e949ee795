(** * The library's upload handlers on a disk that may fail at any moment:
    request_parser/files/uploadhandler.py:125-263

    UploadModel lets the creation of a temporary file fail, as a function of its suffix, and
    nothing else.  Here every operation on a temporary file - creating it
    (uploadedfile.py:56-64), write() and seek(), which writes what is buffered - may succeed
    or raise; what happens next time is a list, one entry for each operation, and when the
    list is used up everything succeeds.  Each handler has its own list, so that all ways in
    which a disk can fill up and be emptied again by others are covered.  Not modelled: how
    much of the data reached the disk when a write failed. *)
From Verif Require Import Py PyDict CodecModel UploadModel CustomModel CustomGuard CustomLib.

Definition fate := list (option exn).
Definition ask (o : fate) : option exn * fate := match o with [] => (None, []) | x :: o => (x, o) end.

(** [TemporaryFileUploadHandler]  138-151 *)
Definition d_temp_new (i : finfo) (t : temph) (o : fate) : res unit * temph * fate :=
  match ask o with
  | (Some e, o) => (Err e, mkTemp (Some i) (th_file t), o)                    (* 143 *)
  | (None, o) => (Ok tt, mkTemp (Some i) (Some []), o)
  end.
Definition d_temp_receive (data : str) (t : temph) (o : fate) : res (option str) * temph * fate :=
  match th_file t with
  | None => (Err AttributeError, t, o)
  | Some f => match ask o with
              | (Some e, o) => (Err e, t, o)                                  (* 146 *)
              | (None, o) => (Ok None, mkTemp (th_info t) (Some (f ++ data)), o)
              end
  end.
Definition d_temp_complete (size : nat) (t : temph) (o : fate) : res (option ufile) * fate :=
  match th_file t with
  | None => (Err AttributeError, o)
  | Some _ => match ask o with
              | (Some e, o) => (Err e, o)                                     (* 149 *)
              | (None, o) => (temp_complete size t, o)
              end
  end.

(** [ConvenientFileUploadHandler]  221-260 *)
Definition d_inner_complete (size : nat) (h : inner) (o : fate) : res (option ufile) * fate :=
  match h with IMem m => (mem_complete size m, o) | ITemp t => d_temp_complete size t o end.
Definition d_inner_new (i : finfo) (h : inner) (o : fate) : res unit * inner * fate :=
  match h with
  | IMem m => let (r, m) := mem_new_file i m in (r, IMem m, o)
  | ITemp t => let '(r, t, o) := d_temp_new i t o in (r, ITemp t, o)
  end.
Definition d_inner_receive (data : str) (h : inner) (o : fate) : res (option str) * inner * fate :=
  match h with
  | IMem m => let (r, m) := mem_receive data m in (r, IMem m, o)
  | ITemp t => let '(r, t, o) := d_temp_receive data t o in (r, ITemp t, o)
  end.
(** 228-252 *)
Definition d_switch (c : convh) (o : fate) : res convh * fate :=
  match d_inner_complete (cv_received c) (cv_inner c) o with                  (* 232 *)
  | (Err e, o) => (Err e, o)
  | (Ok None, o) => (Err AttributeError, o)                                   (* 233 *)
  | (Ok (Some f), o) =>
      match inner_info (cv_inner c) with
      | None => (Err AttributeError, o)
      | Some i =>
          match d_temp_new i new_temp o with                                  (* 237-243 *)
          | (Err e, _, o) => (Err e, o)
          | (Ok _, t, o) =>
              match d_temp_receive (uf_content f) t o with                    (* 246 *)
              | (Err e, _, o) => (Err e, o)
              | (Ok _, t, o) => (Ok (mkConv (ITemp t) (cv_received c) true), o)   (* 249-252 *)
              end
          end
      end
  end.
(** 224-257 *)
Definition d_conv_receive (max : option Z) (data : str) (c : convh) (o : fate) : res (option str) * convh * fate :=
  let need := negb (cv_switched c) && negb (le_max (Z.of_nat (cv_received c + length data)) max) in
  match (if need then d_switch c o else (Ok c, o)) with
  | (Err e, o) => (Err e, c, o)
  | (Ok c, o) =>
      match d_inner_receive data (cv_inner c) o with                          (* 255 *)
      | (Err e, h, o) => (Err e, mkConv h (cv_received c) (cv_switched c), o)
      | (Ok _, h, o) => (Ok None, mkConv h (cv_received c + length data) (cv_switched c), o)   (* 257 *)
      end
  end.

(** ** The three classes as handlers of [CustomModel] *)
Definition d_new (i : finfo) (h : handler) (o : fate) : res unit * handler * fate :=
  match h with
  | HMem m => let (r, m) := mem_new_file i m in (r, HMem m, o)
  | HTemp t => let '(r, t, o) := d_temp_new i t o in (r, HTemp t, o)
  | HConv c => let '(r, h, o) := d_inner_new i (cv_inner c) o in (r, HConv (mkConv h (cv_received c) (cv_switched c)), o)
  end.
Definition d_receive (max : option Z) (data : str) (h : handler) (o : fate) : res (option str) * handler * fate :=
  match h with
  | HMem m => let (r, m) := mem_receive data m in (r, HMem m, o)
  | HTemp t => let '(r, t, o) := d_temp_receive data t o in (r, HTemp t, o)
  | HConv c => let '(r, c, o) := d_conv_receive max data c o in (r, HConv c, o)
  end.
Definition d_complete (size : nat) (h : handler) (o : fate) : res (option ufile) * fate :=
  match h with
  | HMem m => (mem_complete size m, o)
  | HTemp t => d_temp_complete size t o
  | HConv c => d_inner_complete size (cv_inner c) o
  end.
(** StopFutureHandlers is only raised by [mem_new_file]; from the disk it would be an exception like any other *)
Definition disk_ops (max : option Z) : ops (handler * fate) ufile Empty_set :=
  mkOps (handler * fate) ufile Empty_set
    (fun len h => (Good None, (h_raw_input max len (fst h), snd h)))
    (fun i _ h => let '(r, h1, o) := d_new i (fst h) (snd h) in (lift_new r, (h1, o)))
    (fun d _ h => let '(r, h1, o) := d_receive max d (fst h) (snd h) in (of_res r, (h1, o)))
    (fun n h => let (r, o) := d_complete n (fst h) (snd h) in (of_res r, (fst h, o)))
    (fun h => (Good tt, h))
    (fun h => (Good false, h)).
