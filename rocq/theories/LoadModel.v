(** * Model of loading upload handlers by name
    (request_parser/utils/module_loading.py, load_handler in
    request_parser/files/uploadhandler.py, the handlers of HttpRequest)

    [mods name] is what importing the module [name] gives: its attributes, or
    the exception raised by the import.  [V]: values of attributes, [H]: handler
    objects, [call v] is the call of [v] with the request as argument. *)
From Verif Require Import Py PyDict.

Definition ldot : N := 46%N.

Section Load.
  Context {V H : Type} (mods : str -> res (dict V)) (call : V -> res H).

  (** [importlib.import_module(name)] of Python 2.7: relative names need a
      package, the empty name is refused by [__import__] *)
  Definition import_module (name : str) : res (dict V) :=
    match name with
    | [] => Err ValueError
    | c :: _ => if N.eqb c ldot then Err TypeError else mods name
    end.

  (** [import_string]  module_loading.py:9-29.  [raise_("...", err)] raises a
      string, which is a TypeError in Python 2 (lines 18 and 28) *)
  Definition import_string (dotted_path : str) : res V :=
    match rsplit1 ldot dotted_path with                                      (* 15 *)
    | None => Err TypeError                                                  (* 16-18 *)
    | Some (module_path, class_name) =>
        let* md := import_module module_path in                              (* 20 *)
        match dget class_name md with                                        (* 23 *)
        | Some v => Ok v
        | None => Err TypeError                                              (* 24-28 *)
        end
    end.

  (** [load_handler]  uploadhandler.py:265-275 *)
  Definition load_handler (path : str) : res H :=
    let* c := import_string path in call c.

  (** [_initialize_handlers]  request.py:322-328: the new list, when every
      handler could be loaded *)
  Fixpoint load_all (paths : list str) : res (list H) :=
    match paths with
    | [] => Ok []
    | p :: r => let* h := load_handler p in let* hs := load_all r in Ok (h :: hs)
    end.

  (** the property [upload_handlers]  request.py:330-335: the list, and the new
      value of [_upload_handlers] *)
  Definition get_handlers (current : list H) (paths : list str) : res (list H) * list H :=
    match current with
    | [] => match load_all paths with
            | Ok hs => (Ok hs, hs)
            | Err e => (Err e, current)
            end
    | _ => (Ok current, current)
    end.
End Load.
