(** * Model of header-line parsing: request_parser/http/multipartparser.py:566-629,
    and of request_parser/utils/text.py (entities in file names) *)
From Verif Require Import Py PyDict CodecModel PercentModel QueryModel.

Definition hsemi : N := 59%N.
Definition hquote : N := 34%N.
Definition hback : N := 92%N.
Definition hequal : N := 61%N.
Definition htick : N := 39%N.
Definition hstar : N := 42%N.

(** ** [_parse_header_params]  multipartparser.py:602-629 *)
(** [s.find(b';', i)] *)
Definition findc_from (c : char) (s : str) (i : nat) : option nat :=
  option_map (Nat.add i) (findc c (skipn i s)).

(** the loop of lines 622-623: while end > 0 and the number of double quotes in s[:end] is odd *)
Fixpoint semi_loop (fuel : nat) (s : str) (e : option nat) : option nat :=
  match fuel with
  | 0 => e
  | S f =>
      match e with
      | None => None
      | Some 0 => Some 0
      | Some e' => if Nat.odd (countc hquote (firstn e' s))
                   then semi_loop f s (findc_from hsemi s (e' + 1))
                   else Some e'
      end
  end.

(** the length of the piece at the start of [s]: lines 611-625 *)
Definition piece_end (s : str) : nat :=
  match semi_loop (S (length s)) s (findc hsemi s) with
  | None => length s
  | Some e => e
  end.

(** the loop of lines 609-628, before stripping *)
Fixpoint raw_pieces (fuel : nat) (s : str) : list str :=
  match fuel with
  | 0 => []
  | S f =>
      match s with
      | c :: s1 => if N.eqb c hsemi
                   then let e := piece_end s1 in firstn e s1 :: raw_pieces f (skipn e s1)
                   else []
      | [] => []
      end
  end.
Definition parse_header_params (s : str) : list str := map strip (raw_pieces (S (length s)) s).

(** ** [parse_header]  multipartparser.py:566-600 *)
Definition decode_ascii (s : str) : res str :=
  if ascii_only s then Ok s else Err UnicodeDecodeError.

(** lines 596-598: removing quotes and escapes *)
Definition unquote_value (v : str) : str :=
  if Nat.leb 2 (length v) && N.eqb (hd 0%N v) hquote && N.eqb (last v 0%N) hquote
  then replace2 hback hquote [hquote] (replace2 hback hback [hback] (removelast (tl v)))
  else v.
Definition pmap (f : str -> str) (p : pystr) : pystr := match p with PB s => PB (f s) | PU s => PU (f s) end.

(** one parameter: lines 581-599; [None] when there is no '=' *)
Definition parse_param (reg : registry) (p : str) : res (option (str * pystr)) :=
  match findc hequal p with
  | None => Ok None
  | Some i =>
      let* name := decode_ascii (lower (strip (firstn i p))) in              (* 584 *)
      let starred := endswith name [hstar] in
      let name := if starred then removelast name else name in               (* 588 *)
      let value := strip (skipn (S i) p) in                                  (* 591 *)
      let* value :=
        if starred && Nat.eqb (countc htick p) 2                             (* 589 *)
        then match splitc htick value with                                   (* 593 *)
             | [enc; _; v] =>
                 let* v := decode_ascii v in
                 let* enc := decode_ascii enc in
                 let* u := unquote reg enc v in Ok (PU u)                    (* 595 *)
             | _ => Err ValueError
             end
        else Ok (PB value) in
      Ok (Some (name, pmap unquote_value value))
  end.

Fixpoint parse_params (reg : registry) (l : list str) (d : dict pystr) : res (dict pystr) :=
  match l with
  | [] => Ok d
  | p :: r => let* nv := parse_param reg p in
              parse_params reg r (match nv with Some (n, v) => dset n v d | None => d end)
  end.

Definition parse_header (reg : registry) (line : str) : res (str * dict pystr) :=
  match parse_header_params (hsemi :: line) with
  | [] => Err IndexError                          (* not reachable: pop from an empty list *)
  | k :: plist =>
      let* key := decode_ascii (lower k) in                                  (* 578 *)
      let* d := parse_params reg plist [] in
      Ok (key, d)
  end.

(** ** Entities: utils/text.py.
    [name2cp] is [htmlentitydefs.name2codepoint]. *)
Definition eamp : N := 38%N.
Definition ehash : N := 35%N.
Definition is_hex (c : char) : bool :=
  is_digit c || (N.leb 97 c && N.leb c 102) || (N.leb 65 c && N.leb c 70).
Definition is_x (c : char) : bool := N.eqb c 120 || N.eqb c 88.

(** [0-9a-fA-F]+ or \w{1,8} *)
Definition ent_core (t : str) : bool :=
  nonempty t && (forallb is_hex t || (Nat.leb (length t) 8 && forallb is_word t)).
(** the group of [_entity_re] (line 4); no character of it can be a ';' *)
Definition ent_text (t : str) : bool :=
  let t1 := match t with c :: r => if N.eqb c ehash then r else t | [] => t end in
  ent_core t1 || match t1 with c :: r => is_x c && ent_core r | [] => false end.

(** [int(t, 16)] of word characters: an optional "0x" *)
Definition int16 (t : str) : option N :=
  match t with
  | a :: b :: r => if N.eqb a 48 && is_x b then int_nat 16 r else int_nat 16 t
  | _ => int_nat 16 t
  end.
(** [chr(c)]: OverflowError beyond a C long (64 bits), ValueError ([None]) beyond 255 *)
Definition py_chr (c : N) : res (option char) :=
  if N.leb 9223372036854775808 c then Err OverflowError
  else Ok (if N.ltb c 256 then Some c else None).

(** [_replace_entity]  text.py:6-22 *)
Definition replace_entity (name2cp : str -> option N) (t : str) : res str :=
  let whole := eamp :: t ++ [hsemi] in
  let num := match t with
             | c :: r =>
                 if N.eqb c ehash
                 then match r with
                      | x :: r' => if is_x x then int16 r' else int_nat 10 r
                      | [] => None                        (* not reachable: the group has another character *)
                      end
                 else name2cp t
             | [] => None                                 (* not reachable *)
             end in
  match num with
  | None => Ok whole
  | Some c => let* r := py_chr c in
              match r with Some ch => Ok [ch] | None => Ok whole end
  end.

(** [_entity_re.sub]: leftmost matches; a match at '&' must reach the next ';' *)
Fixpoint unescape_loop (fuel : nat) (name2cp : str -> option N) (s : str) : res str :=
  match fuel with
  | 0 => Err OutOfFuel
  | S f =>
      match s with
      | [] => Ok []
      | c :: r =>
          match (if N.eqb c eamp then split1 hsemi r else None) with
          | Some (t, rest) =>
              if ent_text t
              then let* a := replace_entity name2cp t in
                   let* b := unescape_loop f name2cp rest in Ok (a ++ b)
              else let* b := unescape_loop f name2cp r in Ok (c :: b)
          | None => let* b := unescape_loop f name2cp r in Ok (c :: b)
          end
      end
  end.
Definition unescape_entities (name2cp : str -> option N) (s : str) : res str :=
  unescape_loop (S (length s)) name2cp s.
