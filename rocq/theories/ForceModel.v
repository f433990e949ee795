(** * Model of force_text, force_str, is_protected_type and of iri_to_uri on any value
    (request_parser/utils/encoding.py:18-90) *)
From Verif Require Import Py CodecModel PercentModel.

(** a Python value: a string, None, a value of another protected type (numbers, dates) with
    its text, and any other object with what [str] gives for it *)
Inductive pyval := VStr (p : pystr) | VNil | VProt (text : str) | VObj (text : res str).

(** [is_protected_type]  22-34 *)
Definition is_protected (v : pyval) : bool :=
  match v with VNil | VProt _ => true | _ => false end.

(** [str(v)] for a value that is no byte string: unicode is encoded as ASCII *)
Definition native_text (v : pyval) : res str :=
  match v with
  | VStr p => to_native p
  | VNil => Ok !"None"
  | VProt t => Ok t
  | VObj t => t
  end.

(** [force_text]  18-19, [force_str]  37-56: [encoding] and [errors] are used in line 51
    only, which is not reached, [bytes] being [str].  An UnicodeDecodeError becomes a
    TypeError, from [super()] without arguments in line 13 *)
Definition force_text (encoding : str) (strings_only : bool) (errors : str) (v : pyval) : res pyval :=
  match v with
  | VStr (PB _) => Ok v                                                      (* 45-46 *)
  | _ => if strings_only && is_protected v then Ok v                         (* 47-48 *)
         else match native_text v with                                       (* 53 *)
              | Ok t => Ok (VStr (PB t))
              | Err UnicodeDecodeError => Err TypeError                      (* 54-55 *)
              | Err e => Err e
              end
  end.

(** [iri_to_uri]  59-90 *)
Definition iri_to_uri_any (v : pyval) : res (option str) :=
  match v with
  | VNil => Ok None                                                          (* 84-85 *)
  | _ => let* t := native_text v in Ok (Some (iri_to_uri t))                 (* 88-90 *)
  end.
