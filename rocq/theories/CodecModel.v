(** * Character codecs.

    Nothing here models code of the repository.  A codec is what Python's codec
    registry returns for an encoding name; the registry itself is a parameter.
    Python 2 codecs that are not text encodings (hex, base64, zlib, ...) are
    outside the model. *)
From Verif Require Import Py.

(** [c_dec]: bytes.decode(enc) (None: UnicodeDecodeError); [c_rep]: bytes.decode(enc, 'replace');
    [c_enc]: unicode.encode(enc) (None: UnicodeEncodeError); [c_erep]: unicode.encode(enc, 'replace'). *)
Record codec := mkCodec {
  c_dec : str -> option str; c_rep : str -> str; c_enc : str -> option str; c_erep : str -> str }.

(** what is known about a codec that is compatible with ASCII *)
Record codec_ok (c : codec) : Prop := {
  cok_rep : forall s u, c_dec c s = Some u -> c_rep c s = u;
  cok_dec_ascii : forall s, ascii_only s = true -> c_dec c s = Some s;
  cok_enc_ascii : forall s, ascii_only s = true -> c_enc c s = Some s;
  cok_erep : forall u s, c_enc c u = Some s -> c_erep c u = s;
  cok_roundtrip : forall u s, c_enc c u = Some s -> c_dec c s = Some u;
  cok_bytes : forall u s, c_enc c u = Some s -> bytes_only s = true }.

(** the codec registry: [None] is LookupError *)
Definition registry := str -> option codec.

(** ** ISO-8859-1 *)
Definition latin1 : codec :=
  mkCodec (fun s => Some s) (fun s => s)
          (fun u => if bytes_only u then Some u else None)
          (map (fun c => if is_byte c then c else 63%N)).

(** ** ASCII *)
Definition ascii_codec : codec :=
  mkCodec (fun s => if ascii_only s then Some s else None)
          (map (fun c => if is_ascii c then c else 65533%N))
          (fun u => if ascii_only u then Some u else None)
          (map (fun c => if is_ascii c then c else 63%N)).

(** ** UTF-8 of Python 2.7 (wide build): surrogates are encoded like any other
    character.  What 'replace' does with undecodable input is a parameter. *)
Definition utf8_char (c : char) : option str :=
  if N.ltb c 128 then Some [c]
  else if N.ltb c 2048 then Some [(192 + c / 64)%N; (128 + c mod 64)%N]
  else if N.ltb c 65536 then
    Some [(224 + c / 4096)%N; (128 + (c / 64) mod 64)%N; (128 + c mod 64)%N]
  else if N.ltb c 1114112 then
    Some [(240 + c / 262144)%N; (128 + (c / 4096) mod 64)%N; (128 + (c / 64) mod 64)%N; (128 + c mod 64)%N]
  else None.

Fixpoint utf8_enc (u : str) : option str :=
  match u with
  | [] => Some []
  | c :: t => match utf8_char c, utf8_enc t with
              | Some a, Some b => Some (a ++ b)
              | _, _ => None
              end
  end.

Definition cont (c : char) : bool := N.leb 128 c && N.ltb c 192.

Fixpoint utf8_dec (s : str) : option str :=
  match s with
  | [] => Some []
  | a :: t =>
      if N.ltb a 128 then option_map (cons a) (utf8_dec t)
      else if N.ltb a 194 then None
      else if N.ltb a 224 then
        match t with
        | b :: t => if cont b
                    then option_map (cons ((a - 192) * 64 + (b - 128))%N) (utf8_dec t)
                    else None
        | _ => None
        end
      else if N.ltb a 240 then
        match t with
        | b :: c :: t =>
            let x := ((a - 224) * 4096 + (b - 128) * 64 + (c - 128))%N in
            if cont b && cont c && N.leb 2048 x then option_map (cons x) (utf8_dec t) else None
        | _ => None
        end
      else if N.ltb a 245 then
        match t with
        | b :: c :: d :: t =>
            let x := ((a - 240) * 262144 + (b - 128) * 4096 + (c - 128) * 64 + (d - 128))%N in
            if cont b && cont c && cont d && N.leb 65536 x && N.ltb x 1114112
            then option_map (cons x) (utf8_dec t) else None
        | _ => None
        end
      else None
  end.

Definition utf8 (rep : str -> str) : codec :=
  mkCodec utf8_dec (fun s => match utf8_dec s with Some u => u | None => rep s end)
          utf8_enc (fun u => match utf8_enc u with Some s => s | None => rep u end).

(** ** Native strings: a byte string or a unicode string *)
Inductive pystr := PB (s : str) | PU (s : str).
Definition pchars (p : pystr) : str := match p with PB s => s | PU s => s end.
Definition pnonempty (p : pystr) : bool := nonempty (pchars p).

(** [s.decode(enc)] for a byte string *)
Definition decode (reg : registry) (enc s : str) : res str :=
  match reg enc with
  | None => Err LookupError
  | Some c => match c_dec c s with Some u => Ok u | None => Err UnicodeDecodeError end
  end.
(** [s.decode(enc, 'replace')] *)
Definition decode_replace (reg : registry) (enc s : str) : res str :=
  match reg enc with None => Err LookupError | Some c => Ok (c_rep c s) end.
(** [s.encode(enc)]; a byte string is decoded as ASCII first *)
Definition encode (reg : registry) (enc : str) (p : pystr) : res str :=
  match reg enc with
  | None => Err LookupError
  | Some c =>
      match p with
      | PB s => if ascii_only s
                then match c_enc c s with Some b => Ok b | None => Err UnicodeEncodeError end
                else Err UnicodeDecodeError
      | PU u => match c_enc c u with Some b => Ok b | None => Err UnicodeEncodeError end
      end
  end.
(** [s.encode(enc, errors='replace')] of a byte string: the implicit ASCII decoding is strict *)
Definition encode_bytes_replace (reg : registry) (enc s : str) : res str :=
  match reg enc with
  | None => Err LookupError
  | Some c => if ascii_only s then Ok (c_erep c s) else Err UnicodeDecodeError
  end.
(** [str(v)] of a string: unicode is encoded as ASCII *)
Definition to_native (p : pystr) : res str :=
  match p with
  | PB s => Ok s
  | PU u => if ascii_only u then Ok u else Err UnicodeEncodeError
  end.

(** Dictionary keys up to Python equality: an ASCII byte string equals the
    unicode string of the same characters; any other byte string equals no
    unicode string. *)
Definition key_of (p : pystr) : str :=
  match p with
  | PU u => u
  | PB s => if ascii_only s then s else map (fun c => (c + 1114112)%N) s
  end.
