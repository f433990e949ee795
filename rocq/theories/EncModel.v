(** * Model of the quoting wrappers and of urlencode: request_parser/utils/http.py:48-121 *)
From Verif Require Import Py PyDict CodecModel PercentModel QueryModel UriModel.

(** the bytes that [quote] of future.backports.urllib.parse works on: a byte string
    itself, the UTF-8 encoding of a unicode string *)
Definition quoted_bytes (reg : registry) (p : pystr) : res str :=
  match p with PB b => Ok b | PU _ => encode reg UTF8_NAME p end.

(** [quote_from_bytes]: of [safe] only the ASCII characters count *)
Definition safe_ascii (safe : str) : str := filter is_ascii safe.

(** [urlquote]  http.py:48-54 *)
Definition urlquote (reg : registry) (safe : str) (p : pystr) : res str :=
  let* b := quoted_bytes reg p in Ok (quote (safe_ascii safe) b).

(** [urlquote_plus]  57-63: [quote_plus] of the library *)
Definition urlquote_plus (reg : registry) (safe : str) (p : pystr) : res str :=
  if mem 32%N (pchars p) then
    let* s := urlquote reg (safe ++ [32%N]) p in Ok (replacec 32%N plus s)
  else urlquote reg safe p.

(** [urlunquote]  66-72: a text without '%' is returned as it is; pieces that are
    decoded are unicode, and bytes outside ASCII cannot be joined with them *)
Definition urlunquote (reg : registry) (p : pystr) : res pystr :=
  match p with
  | PU u => let* t := unquote reg UTF8_NAME u in Ok (PU t)
  | PB s => if negb (mem percent s) then Ok p
            else if ascii_only s then let* t := unquote reg UTF8_NAME s in Ok (PU t)
            else Err UnicodeDecodeError
  end.

(** [urlunquote_plus]  75-81: [string.replace('+', ' ')] with unicode arguments, so
    that a byte string becomes unicode *)
Definition urlunquote_plus (reg : registry) (p : pystr) : res pystr :=
  if match p with PB s => negb (ascii_only s) | PU _ => false end then Err UnicodeDecodeError
  else let* t := unquote reg UTF8_NAME (replacec plus 32%N (pchars p)) in Ok (PU t).

(** ** [urlencode]  84-121 *)
(** a value of a sequence: a string, None, or an object whose text is [s] (ASCII: a
    number, a date) *)
Inductive uitem := IStr (p : pystr) | INone | IObj (s : str).
(** a value: the same, or a sequence *)
Inductive uval := VItem (i : uitem) | VSeq (l : list uitem).

(** [str(item)] for an item that is not a byte string, 117-119 *)
Definition item_native (i : uitem) : res str :=
  match i with
  | INone => Err TypeError                                                   (* 112-116 *)
  | IStr p => to_native p
  | IObj s => Ok s
  end.
Fixpoint items_native (l : list uitem) : res (list str) :=
  match l with
  | [] => Ok []
  | i :: r => let* x := item_native i in let* xs := items_native r in Ok (x :: xs)
  end.

(** [query_val]: one text, or a list of byte strings, 94-119.  A unicode string is
    neither [str] nor [bytes] in Python 2: it is iterated, character by character *)
Inductive qval := QOne (s : str) | QList (l : list str).
Definition query_val (v : uval) : res qval :=
  match v with
  | VItem INone => Err TypeError                                             (* 95-99 *)
  | VItem (IStr (PB b)) => Ok (QOne b)                                       (* 100-101 *)
  | VItem (IStr (PU u)) => let* l := items_native (map (fun c => IStr (PU [c])) u) in Ok (QList l)
  | VItem (IObj s) => Ok (QOne s)                                            (* 105-106 *)
  | VSeq l => let* l := items_native l in Ok (QList l)
  end.

Fixpoint query_params (q : list (pystr * uval)) : res (list (pystr * qval)) :=
  match q with
  | [] => Ok []
  | (k, v) :: r => let* v := query_val v in let* r := query_params r in Ok ((k, v) :: r)
  end.

(** [str(l)] of a list of byte strings; exact for printable ASCII without double
    quotes and backslashes *)
Definition list_text (l : list str) : str := !"[" ++ join !", " (map quoted l) ++ !"]".

(** [urlencode] of future.backports.urllib.parse, for pairs with these values *)
Definition orig_pair (reg : registry) (doseq : bool) (k : pystr) (v : qval) : res (list str) :=
  let* kb := quoted_bytes reg k in
  let vs := match v with
            | QOne s => [s]
            | QList l => if doseq then l else [list_text l]
            end in
  Ok (map (fun b => quote_plus kb ++ [equal] ++ quote_plus b) vs).
Fixpoint orig_pairs (reg : registry) (doseq : bool) (l : list (pystr * qval)) : res (list str) :=
  match l with
  | [] => Ok []
  | (k, v) :: r => let* x := orig_pair reg doseq k v in
                   let* xs := orig_pairs reg doseq r in Ok (x ++ xs)
  end.

(** a MultiValueDict is given by its [lists()], any other dictionary by its [items()] *)
Definition urlencode (reg : registry) (doseq : bool) (q : list (pystr * uval)) : res str :=
  let* ps := query_params q in
  let* l := orig_pairs reg doseq ps in
  Ok (join [amp] l).
