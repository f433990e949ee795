(** * Model of uri_to_iri (request_parser/utils/encoding.py:92-104) and of the
    accessors of HttpRequest that print: request_parser/http/request.py:107-170 *)
From Verif Require Import Py CodecModel PercentModel QueryModel RequestModel.

Definition UTF8_NAME : str := !"utf-8".

(** [uri_to_iri]  encoding.py:92-104.  [unquote] joins unicode pieces; a byte
    string that is not ASCII cannot be joined with them, nor encoded. *)
Definition uri_to_iri (reg : registry) (uri : pystr) : res pystr :=
  if negb (pnonempty uri) then Ok uri                                         (* 96-97 *)
  else match uri with
       | PB s => if ascii_only s
                 then let* t := unquote reg UTF8_NAME s in let* b := encode reg UTF8_NAME (PU t) in Ok (PB b)
                 else Err UnicodeDecodeError
       | PU u => let* t := unquote reg UTF8_NAME u in let* b := encode reg UTF8_NAME (PU t) in Ok (PB b)
       end.

(** [get_full_path(force_append_slash, raw=True)]  request.py:134-137; the escaped path is
    unicode and ASCII, [get_full_path] of RequestModel is the same text *)
Definition get_full_path_raw (reg : registry) (slash : bool) (r : request) : res pystr :=
  let* t := get_full_path slash r in uri_to_iri reg (PU t).
(** [get_uri(raw=True)]  155-163 *)
Definition get_uri_raw (reg : registry) (r : request) : res str :=
  let* s := attr a_scheme r in
  let* h := attr a_host r in
  let* p := get_full_path_raw reg false r in
  Ok (shown s ++ !"://" ++ shown h ++ pchars p).

(** [str(n)] of an integer *)
Fixpoint dec_loop (fuel : nat) (n : N) (acc : str) : str :=
  match fuel with
  | 0 => acc
  | S f => let acc := (48 + n mod 10)%N :: acc in
           if N.ltb n 10 then acc else dec_loop f (n / 10)%N acc
  end.
Definition N_str (n : N) : str := dec_loop (S (N.to_nat (N.log2 n))) n [].
Definition Z_str (z : Z) : str := if Z.ltb z 0 then 45%N :: N_str (Z.to_N (- z)) else N_str (Z.to_N z).

(** [get_port]  131-132 *)
Definition get_port (r : request) : res str :=
  let* p := attr a_port r in
  Ok (match p with None => !"None" | Some (PortStr s) => s | Some (PortInt z) => Z_str z end).
(** [_current_scheme_host]  168-169 *)
Definition scheme_host (r : request) : res str :=
  let* s := attr a_scheme r in
  let* h := attr a_host r in
  Ok (shown s ++ !"://" ++ shown h).

(** ['%r'] of a byte string with neither a double quote, a backslash nor an unprintable
    character, which is what [get_full_path] returns *)
Definition quoted (s : str) : str := if mem 39%N s then [34%N] ++ s ++ [34%N] else [39%N] ++ s ++ [39%N].
(** [__repr__]  107-110 *)
Definition request_repr (r : request) : res str :=
  let* m := attr a_method r in
  match m with
  | None => Ok !"<HttpRequest>"
  | Some m => let* p := get_full_path false r in
              Ok (if nonempty p then !"<HttpRequest: " ++ m ++ !" " ++ quoted p ++ !">" else !"<HttpRequest>")
  end.
