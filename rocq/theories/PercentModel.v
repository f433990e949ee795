(** * Percent-encoding: the parts of future.backports.urllib.parse the repository
    calls, and request_parser/utils/encoding.py:59-123 *)
From Verif Require Import Py.

Definition percent : N := 37%N.

(** [_ALWAYS_SAFE] of future.backports.urllib.parse: letters, digits and "_.-" *)
Definition always_safe (c : char) : bool := is_alnum c || N.eqb c 95 || N.eqb c 46 || N.eqb c 45.

Definition hexdig (d : N) : char := if N.ltb d 10 then (48 + d)%N else (55 + d)%N.
Definition hexval (c : char) : option N :=
  if is_digit c then Some (c - 48)%N
  else if N.leb 97 c && N.leb c 102 then Some (c - 87)%N
  else if N.leb 65 c && N.leb c 70 then Some (c - 55)%N
  else None.

(** [_Quoter.__missing__]: the byte itself when safe, else '%{:02X}' *)
Definition quote_byte (safe : str) (c : char) : str :=
  if always_safe c || mem c safe then [c]
  else [percent; hexdig (c / 16); hexdig (c mod 16)].

(** [quote_from_bytes(bs, safe)], which [quote] calls for a Python 2 byte string *)
Definition quote (safe bs : str) : str := flat_map (quote_byte safe) bs.

(** [unquote_to_bytes]: every '%' followed by two hexadecimal digits is replaced,
    every other '%' is kept.  (The library splits at '%'; the result is the same.) *)
Fixpoint unquote_to_bytes (s : str) : str :=
  match s with
  | c :: ((a :: ((b :: t) as t2)) as t1) =>
      if N.eqb c percent then
        match hexval a, hexval b with
        | Some x, Some y => (x * 16 + y)%N :: unquote_to_bytes t
        | _, _ => c :: unquote_to_bytes t1
        end
      else c :: unquote_to_bytes t1
  | c :: t1 => c :: unquote_to_bytes t1
  | [] => []
  end.

(** [iri_to_uri]  utils/encoding.py:59-90, for a byte string *)
Definition iri_safe : str := !"/#%[]=:;$&()+,!?*@'~".
Definition iri_to_uri (iri : str) : str := quote iri_safe iri.

(** [escape_uri_path]  utils/encoding.py:106-123 *)
Definition path_safe : str := !"/:@&+$,-_.!~*'()".
Definition escape_uri_path (encode_percent : bool) (path : str) : str :=
  if encode_percent then quote path_safe path else quote (path_safe ++ [percent]) path.
