(** * Model of the request-header parser: request_parser/http/request.py:398-489,
    764-876 and request_parser/utils/http.py:300-345 *)
From Verif Require Import Py PyDict StreamModel.

(** ** The request stream: a LazyStream over the caller's iterator (request.py:59-64).
    The number of items the iterator still delivers bounds every loop, so the
    fuel of [ls_read] is computed and never runs out (proved in HeadFacts). *)
Definition l0 := lstream src.
Definition l0_init (s : src) : l0 := ls_init s None.
Definition src_items (s : l0) : nat := match ls_prod s with Some p => length p | None => 0 end.
Definition l0_read (size : option Z) (s : l0) : res str * l0 :=
  ls_read it_next (4 + src_items s) size s.
Fixpoint src_total (s : src) : nat :=
  match s with [] => 0 | SData d :: r => length d + src_total r | SFail _ :: r => src_total r end.
Definition l0_total (s : l0) : nat :=
  length (ls_left s) + match ls_prod s with Some p => src_total p | None => 0 end.

(** ** Reading up to the blank line: request.py:410-436.
    The result is the header block (without the terminator), together with the
    new value of [_request_header_parsed] (set after the first read, line 418). *)
Fixpoint frame_loop (fuel : nat) (max : option Z) (hdr : str) (started : bool) (s : l0)
  : res (str * str) * bool * l0 :=
  match fuel with
  | 0 => (Err OutOfFuel, started, s)
  | S f =>
      match l0_read max s with
      | (Err e, s1) => (Err e, started, s1)
      | (Ok [], s1) => (Err (InvalidHttpRequest NoTerminator), true, s1)   (* 419-420, 430-431 *)
      | (Ok chunk, s1) =>
          let hdr' := hdr ++ chunk in                                       (* 422 *)
          match find crlfcrlf hdr' with                                     (* 423 *)
          | Some i => (Ok (firstn i hdr', skipn (i + 4) hdr'), true, s1)    (* 424-427 *)
          | None => frame_loop f max hdr' true s1
          end
      end
  end.

Definition frame (max : option Z) (s : l0) : res str * bool * l0 :=
  match frame_loop (2 + l0_total s) max [] false s with
  | (Err e, b, s1) => (Err e, b, s1)
  | (Ok (hdr, rest), b, s1) =>
      match ls_unget rest s1 with                                           (* 435 *)
      | (Err e, s2) => (Err e, b, s2)
      | (Ok _, s2) => (Ok (hdr ++ crlf), b, s2)                             (* 436 *)
      end
  end.

(** ** [s.encode('ascii', '')] on a Python 2 byte string: an implicit ASCII decode *)
Definition ascii_encode (s : str) : res str :=
  if ascii_only s then Ok s else Err UnicodeDecodeError.

(** ** [parse_request_headers]  request.py:799-851 *)
Definition colon : N := 58%N.
Definition headers := dict (list str).

Definition add_header (name value : str) (d : headers) : headers :=         (* 835-839 *)
  match dget name d with
  | Some l => dset name (l ++ [value]) d
  | None => dset name [value] d
  end.

(** the loop of lines 820-842; each turn removes at least three bytes *)
Fixpoint header_lines (fuel : nat) (s : str) (d : headers) : res headers :=
  match fuel with
  | 0 => Err OutOfFuel
  | S f =>
      match find_from crlf s 1 with                                          (* 820, 842 *)
      | None => Ok d
      | Some e =>
          let line := firstn e s in                                          (* 822 *)
          let rest := skipn (e + 2) s in                                     (* 823-824 *)
          match findc colon line with                                        (* 828 *)
          | None => Err (InvalidHttpRequest BadHeaderLine)                   (* 841 *)
          | Some i =>
              let* name := ascii_encode (firstn i line) in                   (* 830-831 *)
              let* value := ascii_encode (strip (skipn (i + 1) line)) in     (* 832-834 *)
              header_lines f rest (add_header name value d)
          end
      end
  end.

Definition parse_request_headers (s : str) : res (str * headers) :=
  match find_from crlf s 1 with                                              (* 810 *)
  | None => Err (InvalidHttpRequest BadRequestLineEnd)                       (* 814 *)
  | Some e =>
      let line := firstn e s in                                              (* 812 *)
      let rest := skipn (e + 2) s in                                         (* 815-816 *)
      let* d := header_lines (S (length rest)) rest [] in
      match d with
      | [] => Err (InvalidHttpRequest NoHeaders)                             (* 845-846 *)
      | _ => Ok (line, d)                                                    (* 849-851 *)
      end
  end.

(** ** URLs: request_parser/utils/http.py:300-345 *)
Definition slash : N := 47%N.
Definition qmark : N := 63%N.
Definition hash : N := 35%N.
Definition semi : N := 59%N.
Definition lbr : N := 91%N.
Definition rbr : N := 93%N.

(** [scheme_chars] of future.backports.urllib.parse: letters, digits, "+-." *)
Definition is_scheme_char (c : char) : bool :=
  is_alnum c || N.eqb c 43 || N.eqb c 45 || N.eqb c 46.

Record split_result := mkSplit {
  su_scheme : str; su_netloc : str; su_path : str; su_query : str; su_fragment : str }.
Record parse_result := mkParse {
  up_scheme : str; up_netloc : str; up_path : str; up_params : str; up_query : str; up_fragment : str }.

(** utils/http.py:326-333 *)
Definition split_scheme (url : str) : str * str :=
  match findc colon url with
  | Some (S i) => if forallb is_scheme_char (firstn (S i) url)
                  then (lower (firstn (S i) url), skipn (S (S i)) url)
                  else ([], url)
  | _ => ([], url)
  end.

(** [_splitnetloc(url, 2)] of future.backports.urllib.parse: up to the first '/', '?' or '#' *)
Definition is_netloc_end (c : char) : bool := N.eqb c slash || N.eqb c qmark || N.eqb c hash.
Fixpoint span_netloc (s : str) : str * str :=
  match s with
  | [] => ([], [])
  | c :: t => if is_netloc_end c then ([], s) else let (a, b) := span_netloc t in (c :: a, b)
  end.

(** utils/http.py:335-336 *)
Definition split_netloc (url : str) : str * str :=
  if startswith url !"//" then span_netloc (skipn 2 url) else ([], url).

Definition cut (c : char) (s : str) : str * str :=
  match split1 c s with Some (a, b) => (a, b) | None => (s, []) end.

(** [_urlsplit]  utils/http.py:319-345, [allow_fragments=True], on decoded text *)
Definition urlsplit (url : str) : res split_result :=
  let (scheme, url1) := split_scheme url in
  let (netloc, url2) := split_netloc url1 in
  if (mem lbr netloc && negb (mem rbr netloc)) || (mem rbr netloc && negb (mem lbr netloc))
  then Err ValueError                                                        (* 337-339 *)
  else
    let (url3, fragment) := cut hash url2 in                                 (* 340-341 *)
    let (path, query) := cut qmark url3 in                                   (* 342-343 *)
    Ok (mkSplit scheme netloc path query fragment).

(** [uses_params] of future.backports.urllib.parse *)
Definition uses_params : list str :=
  [ !"ftp"; !"hdl"; !"prospero"; !"http"; !"imap"; !"https"; !"shttp"; !"rtsp"; !"rtspu";
    !"sip"; !"sips"; !"mms"; !""; !"sftp"; !"tel" ].

(** [_splitparams] of future.backports.urllib.parse *)
Definition splitparams (url : str) : str * str :=
  match rfindc slash url with
  | Some j => match findc semi (skipn j url) with
              | None => (url, [])
              | Some i => (firstn (j + i) url, skipn (S (j + i)) url)
              end
  | None => match findc semi url with
            | None => (url, [])                     (* not reachable: ';' in url *)
            | Some i => (firstn i url, skipn (S i) url)
            end
  end.

(** [_urlparse]  utils/http.py:301-315, on decoded text *)
Definition urlparse_text (url : str) : res parse_result :=
  let* r := urlsplit url in
  let (path, params) :=
    if existsb (seqb (su_scheme r)) uses_params && mem semi (su_path r)
    then splitparams (su_path r) else (su_path r, []) in
  Ok (mkParse (su_scheme r) (su_netloc r) path params (su_query r) (su_fragment r)).

(** on a byte string: [_coerce_args] decodes as ASCII and encodes the results back *)
Definition urlparse (url : str) : res parse_result :=
  if ascii_only url then urlparse_text url else Err UnicodeDecodeError.

(** ** [parse_request_line]  request.py:853-876 *)
Record reqline := mkLine {
  rl_method : str; rl_scheme : str; rl_domain : str; rl_path : str; rl_params : str;
  rl_query : str; rl_fragment : str; rl_proto : str }.

Definition space : N := 32%N.
Definition parse_request_line (line : str) : res reqline :=
  match splitc space line with
  | [method; uri; proto] =>
      let* u := urlparse uri in
      Ok (mkLine method (up_scheme u) (up_netloc u) (up_path u) (up_params u)
                 (up_query u) (up_fragment u) proto)
  | _ => Err (InvalidHttpRequest BadRequestLine)
  end.

(** ** Host validation: request.py:23
    [^([a-z0-9.-]+|\[[a-f0-9]*:[a-f0-9\.:]+\])(:\d+)?$] with [re.match]; [$] also
    matches just before a final newline. *)
Definition is_host_char (c : char) : bool := is_lower c || is_digit c || N.eqb c 46 || N.eqb c 45.
Definition is_hex_low (c : char) : bool := is_digit c || (N.leb 97 c && N.leb c 102).
Definition is_v6_char (c : char) : bool := is_hex_low c || N.eqb c 46 || N.eqb c colon.

Definition port_ok (s : str) : bool :=
  match s with
  | [] => true
  | c :: t => N.eqb c colon && nonempty t && forallb is_digit t
  end.
Fixpoint span (f : char -> bool) (s : str) : str * str :=
  match s with
  | [] => ([], [])
  | c :: t => if f c then let (a, b) := span f t in (c :: a, b) else ([], s)
  end.
Definition host_match_exact (s : str) : bool :=
  match s with
  | c :: t =>
      if N.eqb c lbr then
        let (_, r) := span is_hex_low t in                 (* [a-f0-9]* *)
        match r with
        | c1 :: r1 =>
            if N.eqb c1 colon then
              let (b, r2) := span is_v6_char r1 in         (* [a-f0-9\.:]+ *)
              nonempty b && match r2 with
                            | c2 :: r3 => N.eqb c2 rbr && port_ok r3
                            | [] => false
                            end
            else false
        | [] => false
        end
      else let (a, r) := span is_host_char s in nonempty a && port_ok r
  | [] => false
  end.
Definition host_match (s : str) : bool :=
  host_match_exact s ||
  match rev s with c :: r => N.eqb c LF && host_match_exact (rev r) | [] => false end.

(** [split_domain_port]  request.py:778-797 *)
Definition split_domain_port (host0 : str) : str * str :=
  let host := lower host0 in
  if negb (host_match host) then ([], [])
  else if N.eqb (last host 0%N) rbr then (host, [])
  else
    let (domain, port) := match rsplit1 colon host with
                          | Some (d, p) => (d, p)
                          | None => (host, [])
                          end in
    (if endswith domain !"." then removelast domain else domain, port).
