(** * Model of query strings: request_parser/utils/http.py:377-430 (limited_parse_qsl)
    and request_parser/http/request.py:599-776 (QueryDict, bytes_to_text) *)
From Verif Require Import Py PyDict CodecModel PercentModel.

(** ** [unquote(string, encoding, errors='replace')] of future.backports.urllib.parse
    for a unicode string: the maximal ASCII runs are percent-decoded and decoded. *)
Fixpoint ascii_run (s : str) : str * str :=
  match s with
  | c :: t => if is_ascii c then let (a, b) := ascii_run t in (c :: a, b) else ([], s)
  | [] => ([], [])
  end.

Fixpoint unquote_runs (fuel : nat) (dec : str -> str) (s : str) : str :=
  match fuel with
  | 0 => s
  | S f =>
      match s with
      | [] => []
      | c :: t =>
          if is_ascii c then let (a, b) := ascii_run s in dec (unquote_to_bytes a) ++ unquote_runs f dec b
          else c :: unquote_runs f dec t
      end
  end.

Definition unquote (reg : registry) (enc s : str) : res str :=
  if mem percent s then
    match reg enc with
    | None => Err LookupError
    | Some c => Ok (unquote_runs (S (length s)) (c_rep c) s)
    end
  else Ok s.

(** ** [limited_parse_qsl]  utils/http.py:377-430, for a unicode query string *)
Definition amp : N := 38%N.
Definition semic : N := 59%N.
Definition equal : N := 61%N.
Definition plus : N := 43%N.
Definition is_sep (c : char) : bool := N.eqb c amp || N.eqb c semic.

(** [FIELDS_MATCH.split(qs, maxsplit)]; [None] means no maximum *)
Fixpoint fields_split (max : option nat) (s : str) : list str :=
  match max with
  | Some 0 => [s]
  | _ =>
      match s with
      | [] => [[]]
      | c :: t =>
          if is_sep c then [] :: fields_split (option_map pred max) t
          else match fields_split max t with
               | h :: r => (c :: h) :: r
               | [] => [[c]]                       (* not reachable *)
               end
      end
  end.

(** lines 401-409.  [if fields_limit:] is false for None and 0; a negative
    [maxsplit] makes [re.split] split nothing. *)
Definition qsl_pairs (limit : option Z) (qs : str) : res (list str) :=
  match limit with
  | None => Ok (fields_split None qs)
  | Some z =>
      if Z.eqb z 0 then Ok (fields_split None qs)
      else let pairs := fields_split (Some (Z.to_nat z)) qs in
           if Z.ltb z (Z.of_nat (length pairs)) then Err TooManyFieldsSent else Ok pairs
  end.

(** lines 412-420: the name and the value before decoding *)
Definition qsl_field (blank : bool) (nv : str) : option (str * str) :=
  match nv with
  | [] => None
  | _ =>
      match split1 equal nv with
      | Some (n, v) => if nonempty v || blank then Some (n, v) else None
      | None => if blank then Some (nv, []) else None
      end
  end.

Fixpoint qsl_loop (reg : registry) (enc : str) (blank : bool) (pairs : list str) : res (list (str * str)) :=
  match pairs with
  | [] => Ok []
  | nv :: rest =>
      match qsl_field blank nv with
      | None => qsl_loop reg enc blank rest
      | Some (n, v) =>
          let* n := unquote reg enc (replacec plus 32%N n) in               (* 422-424 *)
          let* v := unquote reg enc (replacec plus 32%N v) in               (* 426-427 *)
          let* r := qsl_loop reg enc blank rest in
          Ok ((n, v) :: r)
      end
  end.

Definition limited_parse_qsl (reg : registry) (qs : str) (blank : bool) (enc : str) (limit : option Z)
  : res (list (str * str)) :=
  let* pairs := qsl_pairs limit qs in qsl_loop reg enc blank pairs.

(** ** QueryDict *)
(** the settings a QueryDict reads (conf/settings.py): DEFAULT_CHARSET and
    DATA_UPLOAD_MAX_NUMBER_FIELDS; [None] is an object without these attributes *)
Record qsettings := mkQS { qs_charset : str; qs_limit : option Z }.

(** keys are kept up to Python equality ([key_of]) *)
Record qdict := mkQD { q_enc : str; q_mut : bool; q_d : dict (list pystr) }.

(** [bytes_to_text]  request.py:764-776 *)
Definition bytes_to_text (reg : registry) (enc : str) (p : pystr) : res pystr :=
  match p with
  | PB s => let* b := encode_bytes_replace reg enc s in Ok (PB b)
  | PU _ => Ok p
  end.

Definition q_set (k : str) (l : list pystr) (q : qdict) : qdict := mkQD (q_enc q) (q_mut q) (dset k l (q_d q)).
Definition q_list (k : str) (q : qdict) : list pystr := match dget k (q_d q) with Some l => l | None => [] end.

(** the effect of a method: an exception or a result, and the dictionary afterwards *)
Definition qres (A : Type) := (res A * qdict)%type.

Definition q_assert {A} (q : qdict) (k : qres A) : qres A :=                 (* 667-669 *)
  if q_mut q then k else (Err AttributeError, q).

Definition q_conv {A} (reg : registry) (q : qdict) (p : pystr) (k : pystr -> qres A) : qres A :=
  match bytes_to_text reg (q_enc q) p with Ok p' => k p' | Err e => (Err e, q) end.

Fixpoint conv_list (reg : registry) (enc : str) (l : list pystr) : res (list pystr) :=
  match l with
  | [] => Ok []
  | p :: r => let* p' := bytes_to_text reg enc p in let* r' := conv_list reg enc r in Ok (p' :: r')
  end.

(** [__setitem__] 671-675 *)
Definition q_setitem (reg : registry) (k v : pystr) (q : qdict) : qres unit :=
  q_assert q (q_conv reg q k (fun k => q_conv reg q v (fun v => (Ok tt, q_set (key_of k) [v] q)))).

(** [__delitem__] 677-679 *)
Definition q_delitem (k : pystr) (q : qdict) : qres unit :=
  q_assert q (match dget (key_of k) (q_d q) with
              | None => (Err KeyError, q)
              | Some _ => (Ok tt, mkQD (q_enc q) (q_mut q) (ddel (key_of k) (q_d q)))
              end).

(** [setlist] 694-698; [None] is not iterable *)
Definition q_setlist (reg : registry) (k : pystr) (l : option (list pystr)) (q : qdict) : qres unit :=
  q_assert q (q_conv reg q k (fun k =>
    match l with
    | None => (Err TypeError, q)
    | Some l => match conv_list reg (q_enc q) l with
                | Err e => (Err e, q)
                | Ok l => (Ok tt, q_set (key_of k) l q)
                end
    end)).

(** [setlistdefault] 700-702 and datastructures.py:157-167; the result is the list
    stored under the key as given, or an unattached empty list *)
Definition q_setlistdefault (reg : registry) (k : pystr) (l : option (list pystr)) (q : qdict)
  : qres (list pystr) :=
  q_assert q
    (if dmem (key_of k) (q_d q) then (Ok (q_list (key_of k) q), q)
     else match q_setlist reg k (Some (match l with None => [] | Some l => l end)) q with
          | (Err e, q) => (Err e, q)
          | (Ok _, q) => (Ok (q_list (key_of k) q), q)
          end).

(** [self.setlistdefault(key).extend(values)]: datastructures.py:171, 207, 219, 228.
    Extending an unattached list has no effect. *)
Definition q_extend (reg : registry) (k : pystr) (vs : list pystr) (q : qdict) : qres unit :=
  match q_setlistdefault reg k None q with
  | (Err e, q) => (Err e, q)
  | (Ok l, q) => (Ok tt, if dmem (key_of k) (q_d q) then q_set (key_of k) (l ++ vs) q else q)
  end.

(** [appendlist] 704-708 *)
Definition q_appendlist (reg : registry) (k v : pystr) (q : qdict) : qres unit :=
  q_assert q (q_conv reg q k (fun k => q_conv reg q v (fun v => q_extend reg k [v] q))).

(** [update] datastructures.py:194-228 with the lists of a MultiValueDict or the
    items of a dictionary (as one-element lists) *)
Fixpoint q_update (reg : registry) (items : list (pystr * list pystr)) (q : qdict) : qres unit :=
  match items with
  | [] => (Ok tt, q)
  | (k, vs) :: r => match q_extend reg k vs q with
                    | (Err e, q) => (Err e, q)
                    | (Ok _, q) => q_update reg r q
                    end
  end.

(** [pop] 710-712, with an optional default *)
Definition q_pop (k : pystr) (default : option (list pystr)) (q : qdict) : qres (list pystr) :=
  q_assert q (match dget (key_of k) (q_d q), default with
              | Some l, _ => (Ok l, mkQD (q_enc q) (q_mut q) (ddel (key_of k) (q_d q)))
              | None, Some l => (Ok l, q)
              | None, None => (Err KeyError, q)
              end).

(** [popitem] 714-716; Python chooses the item: [k] is its key *)
Definition q_popitem (k : str) (q : qdict) : qres (list pystr) :=
  q_assert q (match dget k (q_d q) with
              | Some l => (Ok l, mkQD (q_enc q) (q_mut q) (ddel k (q_d q)))
              | None => (Err KeyError, q)
              end).

(** [clear] 718-720 *)
Definition q_clear (q : qdict) : qres unit :=
  q_assert q (Ok tt, mkQD (q_enc q) (q_mut q) []).

(** [setdefault] 722-726; the default must be a string here *)
Definition q_getitem (k : str) (q : qdict) : res (list pystr) :=
  match dget k (q_d q) with
  | None => Err KeyError
  | Some l => Ok (match rev l with [] => [] | v :: _ => [v] end)
  end.
Definition q_setdefault (reg : registry) (k v : pystr) (q : qdict) : qres (list pystr) :=
  q_assert q (q_conv reg q k (fun k => q_conv reg q v (fun v =>
    let (r, q) := if dmem (key_of k) (q_d q) then (Ok tt, q) else q_setitem reg k v q in
    match r with
    | Err e => (Err e, q)
    | Ok _ => (q_getitem (key_of k) q, q)
    end))).

(** ** The constructor 619-642 *)
Fixpoint q_fill (reg : registry) (l : list (str * str)) (q : qdict) : qres unit :=
  match l with
  | [] => (Ok tt, q)
  | (k, v) :: r => match q_appendlist reg (PU k) (PU v) q with
                   | (Err e, q) => (Err e, q)
                   | (Ok _, q) => q_fill reg r q
                   end
  end.

(** lines 633-639 *)
Definition query_text (reg : registry) (enc : str) (qs : pystr) : res str :=
  match qs with
  | PU u => Ok u
  | PB b => match decode reg enc b with
            | Err UnicodeDecodeError => Ok b                                  (* iso-8859-1 *)
            | r => r
            end
  end.

Definition querydict (reg : registry) (st : option qsettings) (qs : option pystr) (mut : bool) : res qdict :=
  match st with
  | None => Err AttributeError                                               (* 622 *)
  | Some st =>
      let qs := match qs with Some p => if pnonempty p then p else PB [] | None => PB [] end in
      let* text := query_text reg (qs_charset st) qs in
      let* l := limited_parse_qsl reg text true (qs_charset st) (qs_limit st) in
      let (r, q) := q_fill reg l (mkQD (qs_charset st) true []) in
      match r with
      | Err e => Err e
      | Ok _ => Ok (mkQD (q_enc q) mut (q_d q))
      end
  end.

(** [copy], [__copy__], [__deepcopy__] 681-692, 728-730 and [fromkeys] 644-655: the
    constructor is called with settings = '' *)
Definition q_copy (reg : registry) (q : qdict) : res qdict :=
  let* r := querydict reg None None true in
  Ok (mkQD (q_enc r) true (q_d q)).
Definition q_fromkeys (reg : registry) (keys : list pystr) (v : pystr) (mut : bool) : res qdict :=
  let* r := querydict reg None None true in
  let (x, r) := q_update reg (map (fun k => (k, [v])) keys) r in
  match x with Err e => Err e | Ok _ => Ok (mkQD (q_enc r) mut (q_d r)) end.

(** ** [urlencode] 732-759 *)
(** native [urllib.quote_plus] *)
Definition quote_plus (s : str) : str :=
  if mem 32%N s then replacec 32%N plus (quote [32%N] s) else quote [] s.

Definition enc_value (reg : registry) (enc : str) (v : pystr) : res str :=
  let* b := to_native v in encode reg enc (PB b).                            (* str(v).encode(...) *)

Definition enc_pair (reg : registry) (enc : str) (safe : option str) (k v : pystr) : res str :=
  let* kb := encode reg enc k in
  let* vb := enc_value reg enc v in
  Ok (match safe with
      | Some sf => quote sf kb ++ [equal] ++ quote sf vb                     (* 750 *)
      | None => quote_plus kb ++ [equal] ++ quote_plus vb                    (* 753 *)
      end).

Fixpoint enc_pairs (reg : registry) (enc : str) (safe : option str) (l : list (pystr * pystr)) : res (list str) :=
  match l with
  | [] => Ok []
  | (k, v) :: r => let* x := enc_pair reg enc safe k v in
                   let* xs := enc_pairs reg enc safe r in Ok (x :: xs)
  end.

(** the pairs of [lists()], 754-758; the keys of a QueryDict are unicode here *)
Definition q_pairs (q : qdict) : list (pystr * pystr) :=
  flat_map (fun e => map (fun v => (PU (fst e), v)) (snd e)) (q_d q).

Definition q_urlencode (reg : registry) (safe : option pystr) (q : qdict) : res str :=
  let* sf := match safe with
             | Some p => if pnonempty p then let* b := encode reg (q_enc q) p in Ok (Some b) else Ok None
             | None => Ok None
             end in
  let* l := enc_pairs reg (q_enc q) sf (q_pairs q) in
  Ok (join [amp] l).
